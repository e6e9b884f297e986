(** FIPS 205 itself: the signature of Algorithm 19 is accepted by Algorithm 20 under the key of Algorithm 18. *)
From Verif Require Import Bytes Words ZUtil Fips202 KeccakBytes KyberModel KyberSample SlhSpec.

(** ** Merkle trees over an arbitrary leaf function *)
Section Merkle.
  Variables (p : slhp) (PKseed : list Z) (A : ADRS) (L : Z -> list Z).
  Fixpoint merk (z : nat) (i : Z) : list Z :=
    match z with
    | O => L i
    | S z' => T_l p PKseed (setNode A (Z.of_nat z) i) (merk z' (2 * i) ++ merk z' (2 * i + 1))
    end.
  Lemma lxor1_even : forall x, Z.even x = true -> Z.lxor x 1 = x + 1.
  Proof.
    intros x E. apply Z.even_spec in E. destruct E as [y ->]. apply Z.bits_inj'. intros k Hk. rewrite Z.lxor_spec.
    destruct (Z.eq_dec k 0) as [->|N]. rewrite Z.testbit_even_0, Z.testbit_odd_0. reflexivity.
    replace k with (Z.succ (k - 1)) by lia. rewrite Z.testbit_even_succ, Z.testbit_odd_succ by lia. change 1 with (2 * 0 + 1).
    rewrite Z.testbit_odd_succ by lia. rewrite Z.bits_0, xorb_false_r. reflexivity.
  Qed.
  Lemma lxor1_odd : forall x, Z.even x = false -> Z.lxor x 1 = x - 1.
  Proof.
    intros x E. rewrite <- Z.negb_odd in E. apply negb_false_iff, Z.odd_spec in E. destruct E as [y ->].
    rewrite <- lxor1_even by (rewrite Z.even_mul; reflexivity). rewrite Z.lxor_assoc, Z.lxor_nilpotent, Z.lxor_0_r.
    rewrite lxor1_even by (rewrite Z.even_mul; reflexivity). lia.
  Qed.
  Lemma even_add_mul2 : forall c x, Z.even (2 * c + x) = Z.even x.
  Proof. intros. rewrite Z.even_add, Z.even_mul. cbn [Z.even orb]. destruct (Z.even x); reflexivity. Qed.
  (** the climb from node (z, o + idx), o the offset of the tree *)
  Lemma climb_merk : forall m z c idx, 0 <= idx ->
    climb p PKseed A (merk z (c * 2 ^ Z.of_nat m + idx)) idx (c * 2 ^ Z.of_nat m + idx) (Z.of_nat z)
      (map (fun j => merk (z + j) (c * 2 ^ Z.of_nat (m - j) + Z.lxor (idx / 2 ^ Z.of_nat j) 1)) (seq 0 m)) =
    merk (z + m) (c + idx / 2 ^ Z.of_nat m).
  Proof.
    induction m; intros z c idx Hi.
    - cbn [seq map climb]. rewrite Nat.add_0_r. f_equal. change (2 ^ Z.of_nat 0) with 1. rewrite Z.div_1_r. lia.
    - cbn [seq map climb].
      assert (ES : 2 ^ Z.of_nat (S m) = 2 * 2 ^ Z.of_nat m) by (rewrite Nat2Z.inj_succ, Z.pow_succ_r by lia; reflexivity).
      assert (EV : exists o, c * 2 ^ Z.of_nat (S m) = 2 * o /\ o = c * 2 ^ Z.of_nat m) by (exists (c * 2 ^ Z.of_nat m); split; [rewrite ES; ring|reflexivity]).
      destruct EV as (o & E1 & E2). rewrite Nat.sub_0_r, Nat.add_0_r. rewrite E1. change (2 ^ Z.of_nat 0) with 1. rewrite Z.div_1_r.
      assert (T : (if Z.even idx then (2 * o + idx) / 2 else (2 * o + idx - 1) / 2) = o + idx / 2).
      { destruct (Z.even idx) eqn:E.
        - replace (2 * o + idx) with (idx + o * 2) by ring. rewrite Z.div_add by lia. lia.
        - replace (2 * o + idx - 1) with ((idx - 1) + o * 2) by ring. rewrite Z.div_add by lia.
          rewrite <- Z.negb_odd in E. apply negb_false_iff, Z.odd_spec in E. destruct E as [y ->].
          replace (2 * y + 1 - 1) with (y * 2) by ring. rewrite Z.div_mul by lia. replace (2 * y + 1) with (1 + y * 2) by ring. rewrite Z.div_add by lia.
          change (1 / 2) with 0. lia. }
      rewrite T.
      assert (N : T_l p PKseed (setNode A (Z.of_nat z + 1) (o + idx / 2))
                 (if Z.even idx then merk z (2 * o + idx) ++ merk z (2 * o + Z.lxor idx 1) else merk z (2 * o + Z.lxor idx 1) ++ merk z (2 * o + idx)) =
               merk (S z) (o + idx / 2)).
      { cbn [merk]. replace (Z.of_nat (S z)) with (Z.of_nat z + 1) by lia. apply f_equal.
        pose proof (Z.div_mod idx 2 ltac:(lia)) as D. destruct (Z.even idx) eqn:E.
        - rewrite lxor1_even by auto. rewrite Zmod_even, E in D. replace (2 * (o + idx / 2)) with (2 * o + idx) by lia.
          replace (2 * o + (idx + 1)) with (2 * o + idx + 1) by lia. reflexivity.
        - rewrite lxor1_odd by auto. rewrite Zmod_even, E in D. replace (2 * (o + idx / 2)) with (2 * o + (idx - 1)) by lia.
          replace (2 * o + (idx - 1) + 1) with (2 * o + idx) by lia. reflexivity. }
      cbv zeta. rewrite N. rewrite <- seq_shift, map_map.
      rewrite (map_ext _ (fun j => merk (S z + j) (c * 2 ^ Z.of_nat (m - j) + Z.lxor (idx / 2 / 2 ^ Z.of_nat j) 1))).
      + rewrite E2. replace (Z.of_nat z + 1) with (Z.of_nat (S z)) by lia. rewrite IHm by (apply Z.div_pos; lia).
        replace (z + S m)%nat with (S z + m)%nat by lia. f_equal. rewrite Z.div_div by lia. rewrite ES. reflexivity.
      + intros j. replace (z + S j)%nat with (S z + j)%nat by lia. replace (S m - S j)%nat with (m - j)%nat by lia.
        rewrite Z.div_div by lia. do 4 f_equal. rewrite Nat2Z.inj_succ, Z.pow_succ_r by lia. ring.
  Qed.
End Merkle.

Lemma T_len : forall p s A x, length (T_l p s A x) = f_n p.
Proof. intros. apply SHAKE256_len. Qed.
Lemma PRF_len : forall p s k A, length (SlhSpec.PRF p s k A) = f_n p.
Proof. intros. apply SHAKE256_len. Qed.
Lemma merk_len : forall p s A L, (forall i, length (L i) = f_n p) -> forall z i, length (merk p s A L z i) = f_n p.
Proof. intros p s A L H [|z] i; cbn [merk]. apply H. apply T_len. Qed.

(** [blocks] of a concatenation of equal pieces *)
Lemma concat_len : forall k n (f : nat -> list Z) s, (forall i, length (f i) = n) -> length (concat (map f (seq s k))) = (k * n)%nat.
Proof. induction k; intros; cbn [seq map concat]; [reflexivity|]. rewrite app_length, H, (IHk n) by auto. lia. Qed.
Lemma slice_concat : forall k n (f : nat -> list Z) s i r, (forall i, length (f i) = n) -> (i < k)%nat ->
  slice (concat (map f (seq s k)) ++ r) (i * n) n = f (s + i)%nat.
Proof.
  induction k; intros n f s i r H Hi; [lia|]. cbn [seq map concat]. unfold slice in *. destruct i as [|i].
  - cbn [Nat.mul skipn]. rewrite <- app_assoc. rewrite <- (H s) at 1. rewrite firstn_length_app. rewrite Nat.add_0_r. reflexivity.
  - rewrite <- app_assoc. replace (S i * n)%nat with (length (f s) + i * n)%nat by (rewrite H; lia). rewrite <- skipn_skipn'. rewrite skipn_length_app.
    rewrite IHk by (auto; lia). f_equal. lia.
Qed.
Lemma blocks_concat : forall k n (f : nat -> list Z) r, (forall i, length (f i) = n) -> blocks k n (concat (map f (seq 0 k)) ++ r) = map f (seq 0 k).
Proof.
  intros. unfold blocks. apply map_ext_in. intros i Hi. apply in_seq in Hi. rewrite slice_concat by (auto; lia). reflexivity.
Qed.

(** ** WOTS+ *)
Lemma chain_add : forall p s A X a b i, chain p s (chain p s X i a A) (i + Z.of_nat a) b A = chain p s X i (a + b) A.
Proof.
  induction b; intros i; cbn [chain]. rewrite Nat.add_0_r. reflexivity. rewrite IHb. replace (a + S b)%nat with (S (a + b)) by lia. cbn [chain].
  do 2 f_equal. lia.
Qed.
Lemma chain_len : forall p s A X i k, length X = f_n p -> length (chain p s X i k A) = f_n p.
Proof. intros p s A X i [|k] H; cbn [chain]; auto. apply T_len. Qed.

Lemma base_2b_range : forall X b o i, 0 <= nth i (base_2b X b o) 0 < 2 ^ Z.of_nat b.
Proof.
  intros. unfold base_2b. destruct (lt_dec i o) as [H|H].
  - rewrite nth_map_seq by lia. apply Z.mod_pos_bound. apply Z.pow_pos_nonneg; lia.
  - rewrite nth_overflow by (rewrite map_length, seq_length; lia). split; [lia|]. apply Z.pow_pos_nonneg; lia.
Qed.
Lemma base_2b_len : forall X b o, length (base_2b X b o) = o.
Proof. intros. unfold base_2b. rewrite map_length, seq_length. reflexivity. Qed.
Lemma digits_range : forall p M i, 0 <= nth i (wots_digits p M) 0 <= 15.
Proof.
  intros. unfold wots_digits. destruct (lt_dec i (len1 p)) as [H|H].
  - rewrite app_nth1 by (rewrite base_2b_len; auto). pose proof (base_2b_range M 4 (len1 p) i) as R. change (2 ^ Z.of_nat 4) with 16 in R. lia.
  - rewrite app_nth2 by (rewrite base_2b_len; lia). match goal with |- _ <= nth ?j (base_2b ?X 4 ?o) 0 <= _ => pose proof (base_2b_range X 4 o j) as R end.
    change (2 ^ Z.of_nat 4) with 16 in R. lia.
Qed.
Lemma digits_len : forall p M, length (wots_digits p M) = wlen p.
Proof. intros. unfold wots_digits. rewrite app_length, !base_2b_len. reflexivity. Qed.

Section Correct.
  Variables (p : slhp) (PKseed SKseed : list Z).
  Lemma wots_sign_len : forall M A, length (wots_sign p PKseed M SKseed A) = (wlen p * f_n p)%nat.
  Proof. intros. unfold wots_sign. apply concat_len. intros. apply chain_len, PRF_len. Qed.
  Lemma wots_correct : forall M A, wots_pkFromSig p PKseed (wots_sign p PKseed M SKseed A) M A = wots_pkGen p PKseed SKseed A.
  Proof.
    intros M A. unfold wots_pkFromSig, wots_pkGen. cbv zeta. apply f_equal. apply f_equal. apply map_ext_in. intros i Hi. apply in_seq in Hi.
    unfold wots_sign. cbv zeta. rewrite <- (app_nil_r (concat _)). rewrite slice_concat; [|intros; apply chain_len, PRF_len|lia].
    cbn [Nat.add]. pose proof (digits_range p M i) as R.
    pose proof (chain_add p PKseed (setChain A (Z.of_nat i)) (wots_sk p PKseed SKseed A i) (Z.to_nat (nth i (wots_digits p M) 0)) (Z.to_nat (15 - nth i (wots_digits p M) 0)) 0) as E.
    rewrite Z2Nat.id in E by lia. rewrite Z.add_0_l in E. rewrite E. f_equal. lia.
  Qed.

  Lemma xmss_merk : forall A z i, xmss_node p PKseed SKseed i z A = merk p PKseed (setTKP A TREE 0) (fun i => wots_pkGen p PKseed SKseed (setTKP A WOTS_HASH i)) z i.
  Proof. induction z; intros i; cbn [xmss_node merk]; [reflexivity|]. rewrite !IHz. reflexivity. Qed.
  Lemma fors_merk : forall A z i, fors_node p PKseed SKseed i z A = merk p PKseed A (fun i => T_l p PKseed (setNode A 0 i) (fors_skGen p PKseed SKseed A i)) z i.
  Proof. induction z; intros i; cbn [fors_node merk]; [reflexivity|]. rewrite !IHz. reflexivity. Qed.
  Lemma xmss_node_len : forall A z i, length (xmss_node p PKseed SKseed i z A) = f_n p.
  Proof. intros A [|z] i; cbn [xmss_node]; apply T_len. Qed.
  Lemma fors_node_len : forall A z i, length (fors_node p PKseed SKseed i z A) = f_n p.
  Proof. intros A [|z] i; cbn [fors_node]; apply T_len. Qed.

  Lemma xmss_sign_len : forall M idx A, length (xmss_sign p PKseed M SKseed idx A) = xmss_bytes p.
  Proof.
    intros. unfold xmss_sign, xmss_bytes. rewrite app_length, wots_sign_len, (concat_len _ (f_n p)). lia. intros. apply xmss_node_len.
  Qed.
  Theorem xmss_correct : forall M idx A, 0 <= idx < 2 ^ Z.of_nat (f_hp p) ->
    xmss_pkFromSig p PKseed idx (xmss_sign p PKseed M SKseed idx A) M A = xmss_node p PKseed SKseed 0 (f_hp p) A.
  Proof.
    intros M idx A H. unfold xmss_pkFromSig, xmss_sign. rewrite <- (wots_sign_len M (setTKP A WOTS_HASH idx)).
    rewrite firstn_length_app, skipn_length_app. rewrite wots_correct.
    rewrite <- (app_nil_r (concat _)). rewrite blocks_concat by (intros; apply xmss_node_len).
    pose proof (climb_merk p PKseed (setTKP A TREE 0) (fun i => wots_pkGen p PKseed SKseed (setTKP A WOTS_HASH i)) (f_hp p) 0 0 idx ltac:(lia)) as C.
    rewrite Z.mul_0_l, Z.add_0_l in C. rewrite Z.div_small in C by lia. cbn [Nat.add] in C. rewrite Z.add_0_r in C. rewrite xmss_merk. rewrite <- C. cbn [merk Z.of_nat].
    cbv zeta. apply f_equal. apply map_ext. intros j. rewrite xmss_merk. f_equal.
  Qed.

  (** ** FORS *)
  Lemma fors_sign_len : forall md A, length (fors_sign p PKseed md SKseed A) = (f_k p * fors_piece p)%nat.
  Proof.
    intros. unfold fors_sign, fors_piece. apply concat_len. intros i. rewrite app_length, (concat_len _ (f_n p)) by (intros; apply fors_node_len).
    unfold fors_skGen. rewrite PRF_len. lia.
  Qed.
  (** the FORS public key of an honest signature: the roots hashed *)
  Definition fors_pk (A : ADRS) : list Z :=
    T_l p PKseed (setTKP A FORS_ROOTS (A_w1 A)) (concat (map (fun i => fors_node p PKseed SKseed (Z.of_nat i) (f_a p) A) (seq 0 (f_k p)))).
  Theorem fors_correct : forall md A, fors_pkFromSig p PKseed (fors_sign p PKseed md SKseed A) md A = fors_pk A.
  Proof.
    intros md A. unfold fors_pkFromSig, fors_pk. apply f_equal. apply f_equal. apply map_ext_in. intros i Hi. apply in_seq in Hi. cbv zeta.
    unfold fors_sign. rewrite <- (app_nil_r (concat (map _ (seq 0 (f_k p))))). rewrite slice_concat; [| |lia].
    2:{ intros j. rewrite app_length, (concat_len _ (f_n p)) by (intros; apply fors_node_len). unfold fors_skGen, fors_piece. rewrite PRF_len. lia. }
    cbn [Nat.add]. set (t := fors_idx p md i). assert (Ht : 0 <= t < 2 ^ Z.of_nat (f_a p)) by apply base_2b_range.
    set (sk := fors_skGen p PKseed SKseed A (Z.of_nat i * 2 ^ Z.of_nat (f_a p) + t)). assert (Ls : length sk = f_n p) by apply PRF_len.
    rewrite <- Ls at 1 3. rewrite firstn_length_app, skipn_length_app. rewrite <- (app_nil_r (concat _)). rewrite blocks_concat by (intros; apply fors_node_len).
    pose proof (climb_merk p PKseed A (fun i => T_l p PKseed (setNode A 0 i) (fors_skGen p PKseed SKseed A i)) (f_a p) 0 (Z.of_nat i) t ltac:(lia)) as C.
    cbn [Nat.add merk] in C. rewrite (Z.div_small t) in C by lia. rewrite Z.add_0_r in C. rewrite fors_merk. rewrite <- C. unfold sk. change (Z.of_nat 0) with 0.
    apply f_equal. apply map_ext. intros j. rewrite fors_merk. reflexivity.
  Qed.

  (** ** hypertree *)
  Definition hp2 := 2 ^ Z.of_nat (f_hp p).
  Lemma ht_sign_len : forall todo j M tree leaf, length (ht_sign_from p PKseed todo j M SKseed tree leaf) = (todo * xmss_bytes p)%nat.
  Proof. induction todo; intros; cbn [ht_sign_from]; [reflexivity|]. rewrite app_length, IHtodo, xmss_sign_len. lia. Qed.
  (** the honest hypertree signature climbs to the root of the top tree *)
  Lemma ht_correct_from : forall todo j M tree leaf, (0 < todo)%nat -> 0 <= leaf < hp2 -> 0 <= tree < hp2 ^ Z.of_nat (todo - 1) ->
    ht_root_from p PKseed todo j M (ht_sign_from p PKseed todo j M SKseed tree leaf) tree leaf =
    xmss_node p PKseed SKseed 0 (f_hp p) (ht_adrs (j + (todo - 1)) 0).
  Proof.
    assert (Hh : 0 < hp2) by (apply Z.pow_pos_nonneg; lia).
    induction todo; intros j M tree leaf Ht Hl Htr; [lia|]. cbn [ht_root_from ht_sign_from]. cbv zeta.
    rewrite <- (xmss_sign_len M leaf (ht_adrs j tree)). rewrite firstn_length_app, skipn_length_app. rewrite xmss_correct by exact Hl.
    destruct todo as [|todo].
    - cbn [Nat.sub] in *. change (hp2 ^ Z.of_nat 0) with 1 in Htr. replace tree with 0 by lia. cbn [ht_root_from]. rewrite Nat.add_0_r. reflexivity.
    - fold hp2. rewrite IHtodo.
      + f_equal. f_equal. lia.
      + lia.
      + apply Z.mod_pos_bound. exact Hh.
      + cbn [Nat.sub] in *. rewrite Nat.sub_0_r. split; [apply Z.div_pos; lia|]. apply Z.div_lt_upper_bound; [lia|].
        rewrite Nat2Z.inj_succ, Z.pow_succ_r in Htr by lia. lia.
  Qed.

  Theorem slh_correct : forall M SKprf rnd, (0 < f_d p)%nat -> (f_h p = f_d p * f_hp p)%nat ->
    slh_verify_internal p PKseed M (slh_sign_internal p PKseed M SKseed SKprf (slh_root p PKseed SKseed) rnd) (slh_root p PKseed SKseed).
  Proof.
    intros M SKprf rnd Hd Hh. unfold slh_verify_internal, slh_sign_internal. cbv zeta. set (root := slh_root p PKseed SKseed).
    set (R := PRF_msg p SKprf rnd M). assert (LR : length R = f_n p) by apply SHAKE256_len.
    set (dg := H_msg p R PKseed root M). set (A := fors_adrs (dg_tree p dg) (dg_leaf p dg)).
    set (SF := fors_sign p PKseed (dg_md p dg) SKseed A). assert (LF : length SF = (f_k p * fors_piece p)%nat) by apply fors_sign_len.
    set (PF := fors_pkFromSig p PKseed SF (dg_md p dg) A).
    set (HT := ht_sign p PKseed PF SKseed (dg_tree p dg) (dg_leaf p dg)).
    assert (LH : length HT = (f_d p * xmss_bytes p)%nat) by apply ht_sign_len.
    split.
    - rewrite !app_length, LR, LF, LH. unfold sig_bytes, fors_piece, xmss_bytes. rewrite Hh. ring.
    - assert (E1 : firstn (f_n p) (R ++ SF ++ HT) = R) by (rewrite <- LR; apply firstn_length_app).
      assert (E2 : slice (R ++ SF ++ HT) (f_n p) (f_k p * fors_piece p) = SF) by (unfold slice; rewrite <- LR, skipn_length_app, <- LF; apply firstn_length_app).
      assert (E3 : skipn (f_n p + f_k p * fors_piece p) (R ++ SF ++ HT) = HT).
      { rewrite <- skipn_skipn'. rewrite <- LR, skipn_length_app, <- LF. apply skipn_length_app. }
      rewrite E1, E2, E3. fold dg. fold A. fold PF. unfold ht_verify, HT, ht_sign.
      assert (Q : (f_h p / f_d p = f_hp p)%nat) by (rewrite Hh, Nat.mul_comm; apply Nat.div_mul; lia).
      rewrite ht_correct_from; [reflexivity|auto| |].
      + unfold dg_leaf, hp2. rewrite Q. apply Z.mod_pos_bound. apply Z.pow_pos_nonneg; lia.
      + unfold dg_tree. rewrite Q, Hh. unfold hp2. rewrite <- Z.pow_mul_r by lia.
        replace (Z.of_nat (f_hp p) * Z.of_nat (f_d p - 1)) with (Z.of_nat (f_d p * f_hp p - f_hp p)).
        apply Z.mod_pos_bound. apply Z.pow_pos_nonneg; lia.
        destruct (f_d p) as [|d']; [lia|]. cbn [Nat.sub]. rewrite Nat.sub_0_r. cbn [Nat.mul]. replace (f_hp p + d' * f_hp p - f_hp p)%nat with (f_hp p * d')%nat by lia. lia.
  Qed.
End Correct.
