(** The NTT of dilithium_ntt.c against the transform of FIPS 204, and the transform against the ring. *)
From Verif Require Import Bytes Words KeccakBytes PolyRing NttLoop NttSim KyberNtt KyberArith DilithiumModel DilithiumSpec DilithiumArith.
Require Import Lia.
From Coq Require Permutation.

(** ** powers *)
Lemma powd_pow : forall e b, powd b e mod dq = b ^ Z.of_nat e mod dq.
Proof.
  induction e; intros b. reflexivity. cbn [powd]. rewrite Nat2Z.inj_succ, Z.pow_succ_r by lia.
  rewrite Z.mod_mod by (unfold dq; lia). rewrite Z.mul_mod, IHe, <- Z.mul_mod by (unfold dq; lia). reflexivity.
Qed.
Lemma powd_range : forall e b, 0 <= powd b e < dq.
Proof. destruct e; intros; cbn [powd]. unfold dq; lia. apply Z.mod_pos_bound. reflexivity. Qed.
Lemma powd_eq : forall e b, powd b e = b ^ Z.of_nat e mod dq.
Proof. intros. rewrite <- powd_pow, Z.mod_small; auto. apply powd_range. Qed.
Lemma dpow_modq : forall a b e, a mod dq = b mod dq -> (a ^ Z.of_nat e) mod dq = (b ^ Z.of_nat e) mod dq.
Proof.
  intros a b e H. induction e. reflexivity.
  rewrite Nat2Z.inj_succ, !Z.pow_succ_r by lia.
  rewrite Z.mul_mod, H, IHe, <- Z.mul_mod by (unfold dq; lia). reflexivity.
Qed.
Lemma powd_modl : forall a b e, a mod dq = b mod dq -> powd a e = powd b e.
Proof. intros. rewrite !powd_eq. apply dpow_modq. auto. Qed.
Lemma powd_add : forall a b x, (powd x a * powd x b) mod dq = powd x (a + b).
Proof.
  intros. rewrite !powd_eq, <- Z.mul_mod by (unfold dq; lia). rewrite Nat2Z.inj_add, Z.pow_add_r by lia. reflexivity.
Qed.
Lemma powd_mul : forall a b x, powd (powd x a) b = powd x (a * b).
Proof.
  intros. rewrite (powd_modl _ (x ^ Z.of_nat a)).
  - rewrite !powd_eq, Nat2Z.inj_mul, Z.pow_mul_r by lia. reflexivity.
  - apply powd_pow.
Qed.

(** ** the roots *)
Definition dz (k : nat) : Z := 8265825 * dzeta k.
Definition dzi (k : nat) : Z := - 8265825 * dzeta (mir k).

Lemma dz_sq_chk : forallb (fun k => ((k =? 0)%nat || ((dz k * dz k) mod dq =? rt dz k mod dq))) (seq 0 256) = true.
Proof. vm_cast_no_check (eq_refl true). Qed.
Lemma dz_sq : forall k, (1 <= k < 256)%nat -> (dz k * dz k) mod dq = rt dz k mod dq.
Proof.
  intros k H. pose proof (nat_range _ _ dz_sq_chk k ltac:(lia)) as E. apply orb_prop in E. destruct E as [E|E].
  apply Nat.eqb_eq in E; lia. apply Z.eqb_eq in E. auto.
Qed.
Lemma dz_inv_chk : forallb (fun k => ((k =? 0)%nat || ((dz k * dzi k) mod dq =? 1 mod dq))) (seq 0 256) = true.
Proof. vm_cast_no_check (eq_refl true). Qed.
Lemma dz_inv : forall k, (1 <= k < 256)%nat -> (dz k * dzi k) mod dq = 1 mod dq.
Proof.
  intros k H. pose proof (nat_range _ _ dz_inv_chk k ltac:(lia)) as E. apply orb_prop in E. destruct E as [E|E].
  apply Nat.eqb_eq in E; lia. apply Z.eqb_eq in E. auto.
Qed.
(** the powers of zeta, in one pass *)
Fixpoint ptab (n : nat) (x : Z) : list Z := match n with O => [] | S n' => x :: ptab n' ((dzeta_root * x) mod dq) end.
Lemma nth_ptab : forall n k e, (e < n)%nat -> nth e (ptab n (powd dzeta_root k)) 0 = powd dzeta_root (k + e).
Proof.
  induction n; intros k e He. lia. cbn [ptab]. destruct e as [|e]; cbn [nth]. f_equal; lia.
  change ((dzeta_root * powd dzeta_root k) mod dq) with (powd dzeta_root (S k)). rewrite IHn by lia. f_equal; lia.
Qed.
Lemma dleaf_chk : (fun t => forallb (fun s => rt dz (1 * 2 ^ 8 + s) mod dq =? nth (Z.to_nat (2 * BitRev8 s + 1)) t 0) (seq 0 256)) (ptab 512 1) = true.
Proof. vm_cast_no_check (eq_refl true). Qed.
Lemma BitRev8_chk : forallb (fun i => ((Z.to_nat (BitRev8 i) <? 256) && (Z.to_nat (BitRev8 (Z.to_nat (BitRev8 i))) =? i))%nat) (seq 0 256) = true.
Proof. vm_cast_no_check (eq_refl true). Qed.
Lemma BitRev8_range : forall i, (i < 256)%nat -> (Z.to_nat (BitRev8 i) < 256)%nat.
Proof. intros i H. pose proof (nat_range _ _ BitRev8_chk i H) as E. apply andb_prop in E. apply Nat.ltb_lt. apply E. Qed.
Lemma BitRev8_inv : forall i, (i < 256)%nat -> Z.to_nat (BitRev8 (Z.to_nat (BitRev8 i))) = i.
Proof. intros i H. pose proof (nat_range _ _ BitRev8_chk i H) as E. apply andb_prop in E. apply Nat.eqb_eq. apply E. Qed.
Lemma bitrevd_pos : forall n i, 0 <= bitrevd n i.
Proof. induction n; intros; cbn [bitrevd]. lia. pose proof (Z.mod_pos_bound i 2). specialize (IHn (i / 2)). assert (0 <= 2 ^ Z.of_nat n) by (apply Z.pow_nonneg; lia). nia. Qed.
Lemma dgam_rev : forall i, dgam i = powd dzeta_root (2 * Z.to_nat (BitRev8 i) + 1).
Proof. intros. unfold dgam. f_equal. pose proof (bitrevd_pos 8 (Z.of_nat i)). unfold BitRev8 in *. lia. Qed.
Lemma leaf_dgam : forall s, (s < 256)%nat -> rt dz (1 * 2 ^ 8 + s) mod dq = dgam s.
Proof.
  intros s H. pose proof dleaf_chk as C. cbv beta in C. pose proof (nat_range _ _ C s H) as E. clear C. apply Z.eqb_eq in E. rewrite E.
  rewrite (nth_ptab 512 0). reflexivity.
  pose proof (BitRev8_range s H). pose proof (bitrevd_pos 8 (Z.of_nat s)). unfold BitRev8 in *. lia.
Qed.
Lemma dzeta_range_chk : forallb (fun k => (-4190208 <=? dzeta k) && (dzeta k <=? 4190208)) (seq 0 256) = true.
Proof. vm_cast_no_check (eq_refl true). Qed.
Lemma dzeta_range : forall k, -4190208 <= dzeta k <= 4190208.
Proof.
  intros k. destruct (Nat.lt_ge_cases k 256).
  - pose proof (nat_range _ _ dzeta_range_chk k H) as E. apply andb_prop in E. lia.
  - unfold dzeta. rewrite nth_overflow. lia. cbn [length dilithium_zetas]. lia.
Qed.

(** ** the transform of the standard is the reduction tree *)
Definition dnt8 (f : list Z) : list Z := nttR 1 dz 8 1 f.
Definition dint8 (f : list Z) : list Z := inttR 1 dzi 8 1 f.

Lemma length_dnt8 : forall f, length f = 256%nat -> length (dnt8 f) = 256%nat.
Proof. intros. apply (length_nttR 1 dz 8 1 f). auto. Qed.
Lemma length_dint8 : forall f, length f = 256%nat -> length (dint8 f) = 256%nat.
Proof. intros. apply (length_inttR 1 dzi 8 1 f). auto. Qed.
Lemma dlength_NTT : forall f, length (dNTT f) = 256%nat.
Proof. intros. unfold dNTT. rewrite map_length. apply seq_length. Qed.
Lemma dlength_NTTinv : forall f, length (dNTTinv f) = 256%nat.
Proof. intros. unfold dNTTinv. rewrite map_length. apply seq_length. Qed.
Lemma dlength_Mul : forall f g, length (dMul f g) = 256%nat.
Proof. intros. unfold dMul. rewrite map_length. apply seq_length. Qed.
Lemma dnth_NTT : forall f n, (n < 256)%nat ->
  nth n (dNTT f) 0 = zsum 256 (fun j => nth j f 0 * powd (dgam n) j) mod dq.
Proof.
  intros f n H. unfold dNTT.
  exact (nth_map_seq (fun n => zsum 256 (fun j => nth j f 0 * powd (dgam n) j) mod dq) 0 256 n 0 H).
Qed.
Lemma dnth_NTTinv : forall g n, (n < 256)%nat ->
  nth n (dNTTinv g) 0 = (8347681 * zsum 256 (fun i => nth i g 0 * powd (powd (dgam i) 511) n)) mod dq.
Proof.
  intros g n H. unfold dNTTinv.
  exact (nth_map_seq (fun n => (8347681 * zsum 256 (fun i => nth i g 0 * powd (powd (dgam i) 511) n)) mod dq) 0 256 n 0 H).
Qed.
Lemma dnth_Mul : forall a b n, (n < 256)%nat -> nth n (dMul a b) 0 = (nth n a 0 * nth n b 0) mod dq.
Proof. intros a b n H. unfold dMul. exact (nth_map_seq (fun i => (nth i a 0 * nth i b 0) mod dq) 0 256 n 0 H). Qed.

Theorem dNTT_tree : forall f, length f = 256%nat -> M dq (dnt8 f) = dNTT f.
Proof.
  intros f L. apply nth_ext0. rewrite length_M, length_dnt8, dlength_NTT; auto.
  intros n Hn. rewrite length_M, length_dnt8 in Hn by auto. rewrite nth_M, dnth_NTT by auto.
  pose proof (nttR_leaf dq dq_pos 1 dz 256 dz_sq 8 1 f n 0) as T.
  replace (1 * n + 0)%nat with n in T by lia. unfold dnt8.
  rewrite T; auto.
  change (2 ^ 8)%nat with 256%nat. apply M_zsum. exact dq_pos. intros j Hj.
  replace (1 * j + 0)%nat with j by lia.
  rewrite Z.mul_comm. rewrite Z.mul_mod, (Z.mul_mod (nth _ f 0) (powd _ _)) by (unfold dq; lia). do 2 f_equal.
  rewrite powd_pow. apply dpow_modq. pose proof (leaf_dgam n Hn) as G. change (1 * 2 ^ 8 + n)%nat with (1 * 256 + n)%nat in G.
  rewrite <- G. rewrite Z.mod_mod by (unfold dq; lia). reflexivity.
Qed.

(** ** orthogonality *)
Lemma zsum_split : forall n m f, zsum (n + m) f = zsum n f + zsum m (fun t => f (n + t)%nat).
Proof.
  intros n m f. induction m. rewrite Nat.add_0_r. cbn [zsum]. lia.
  replace (n + S m)%nat with (S (n + m)) by lia. cbn [zsum]. rewrite IHm. lia.
Qed.
(** the sum of the powers of a root g of order 2^n *)
Lemma geo_zero : forall n g e, n = 0%nat \/ powd g (2 ^ (n - 1)) = dq - 1 -> (e mod 2 ^ n <> 0)%nat ->
  zsum (2 ^ n) (fun t => powd g (t * e)) mod dq = 0.
Proof.
  induction n; intros g e Hg He. { cbn [Nat.pow] in He. rewrite Nat.mod_1_r in He. lia. }
  destruct Hg as [Hg|Hg]; [lia|]. rewrite Nat.sub_succ, Nat.sub_0_r in Hg.
  set (N := (2 ^ n)%nat) in *. assert (NP : (N <> 0)%nat) by (unfold N; apply Nat.pow_nonzero; lia).
  assert (E2 : (2 ^ S n = N + N)%nat) by (unfold N; cbn [Nat.pow]; lia). rewrite E2 in *.
  rewrite zsum_split.
  assert (PM : (powd g (N * e)) = (if Nat.even e then 1 else dq - 1)).
  { rewrite <- powd_mul, Hg. clear. induction e as [e IH] using (well_founded_induction Wf_nat.lt_wf). destruct e as [|[|e]]; [reflexivity|reflexivity|].
    cbn [Nat.even]. rewrite <- (IH e) by lia. cbn [powd]. rewrite Zmult_mod_idemp_r, Z.mul_assoc.
    replace ((dq - 1) * (dq - 1) * powd (dq - 1) e) with (powd (dq - 1) e + (dq - 2) * powd (dq - 1) e * dq) by (unfold dq; lia).
    rewrite Z_mod_plus_full. apply Z.mod_small. apply powd_range. }
  assert (SH : zsum N (fun t => powd g ((N + t) * e)) mod dq = (powd g (N * e) * zsum N (fun t => powd g (t * e))) mod dq).
  { rewrite <- zsum_mul. apply M_zsum. exact dq_pos. intros t Ht. rewrite Nat.mul_add_distr_r, <- powd_add, Z.mod_mod by (unfold dq; lia). reflexivity. }
  rewrite Z.add_mod, SH, <- Z.add_mod by (unfold dq; lia). rewrite PM. clear SH.
  destruct (Nat.even e) eqn:Ev.
  - apply Nat.even_spec in Ev. destruct Ev as [e' ->].
    assert (S1 : zsum N (fun t => powd g (t * (2 * e'))) mod dq = 0).
    { rewrite (zsum_ext N _ (fun t => powd (powd g 2) (t * e'))). apply IHn.
      - destruct n as [|n]; [left; reflexivity|right]. rewrite powd_mul, Nat.sub_succ, Nat.sub_0_r. rewrite <- Hg. f_equal.
      - intros Z0. apply He. fold N in Z0. replace (N + N)%nat with (2 * N)%nat by lia. rewrite Nat.mul_mod_distr_l by lia. rewrite Z0. lia.
      - intros t Ht. rewrite powd_mul. f_equal. lia. }
    rewrite Z.mul_1_l, Z.add_mod, S1 by (unfold dq; lia). reflexivity.
  - replace (zsum N (fun t => powd g (t * e)) + (dq - 1) * zsum N (fun t => powd g (t * e))) with (zsum N (fun t => powd g (t * e)) * dq) by lia.
    apply Z_mod_mult.
Qed.
(** BitRev8 permutes the indices *)
Lemma fold_add_perm : forall l l', Permutation.Permutation l l' -> fold_right Z.add 0 l = fold_right Z.add 0 l'.
Proof. induction 1; cbn [fold_right]; lia. Qed.
Lemma zsum_bitrev : forall f, zsum 256 (fun i => f (Z.to_nat (BitRev8 i))) = zsum 256 f.
Proof.
  intros f. assert (Z0 : forall g, zsum 256 g = fold_right Z.add 0 (map g (seq 0 256))) by (intros g; symmetry; exact (zsum_fold 256 0 g)).
  rewrite !Z0. rewrite <- (map_map (fun i => Z.to_nat (BitRev8 i)) f). apply fold_add_perm, Permutation.Permutation_map.
  apply Permutation.NoDup_Permutation_bis.
  - assert (N : NoDup (seq 0 256)) by apply seq_NoDup. assert (H : forall x, In x (seq 0 256) -> (x < 256)%nat) by (intros x Hx; apply in_seq in Hx; lia).
    revert N H. generalize (seq 0 256). induction l as [|a l IH]; intros N H. constructor. inversion N; subst. cbn [map]. constructor.
    + rewrite in_map_iff. intros (b & E & Hb). apply H2. rewrite <- (BitRev8_inv a), <- E, BitRev8_inv; auto. apply H; right; auto. apply H; left; auto.
    + apply IH; auto. intros; apply H; right; auto.
  - rewrite map_length. reflexivity.
  - intros x Hx. apply in_map_iff in Hx. destruct Hx as (i & <- & Hi). apply in_seq in Hi. apply in_seq. pose proof (BitRev8_range i). lia.
Qed.
Lemma zeta_256 : powd dzeta_root 256 = dq - 1.
Proof. vm_cast_no_check (eq_refl (dq - 1)). Qed.
Lemma zeta_512 : powd dzeta_root 512 = 1.
Proof. vm_cast_no_check (eq_refl 1). Qed.
Lemma dgam_sum : forall e, (e < 512)%nat -> zsum 256 (fun i => powd (dgam i) e) mod dq = (if (e =? 0)%nat then 256 else 0) \/ e = 256%nat.
Proof.
  intros e He. destruct (Nat.eqb_spec e 0) as [->|N0]. left; reflexivity. destruct (Nat.eq_dec e 256); [right; auto|left].
  rewrite (zsum_ext 256 _ (fun i => (fun t => powd dzeta_root ((2 * t + 1) * e)) (Z.to_nat (BitRev8 i)))) by (intros i Hi; rewrite dgam_rev, powd_mul; reflexivity).
  rewrite (zsum_bitrev (fun t => powd dzeta_root ((2 * t + 1) * e))).
  rewrite (M_zsum dq dq_pos 256 _ (fun t => powd dzeta_root e * powd (powd dzeta_root 2) (t * e))).
  - rewrite zsum_mul, Z.mul_mod by (unfold dq; lia). rewrite (geo_zero 8). rewrite Z.mul_0_r; reflexivity.
    right. rewrite powd_mul. exact zeta_256.
    change (2 ^ 8)%nat with 256%nat. intros Z0. apply Nat.mod_divide in Z0; [|lia]. destruct Z0 as [k Hk]. lia.
  - intros t Ht. rewrite (powd_mul 2), powd_add. rewrite Z.mod_small by apply powd_range. f_equal. lia.
Qed.
Lemma dgam_512 : forall i, (i < 256)%nat -> powd (dgam i) 512 = 1.
Proof.
  intros i H. rewrite dgam_rev, powd_mul. rewrite Nat.mul_comm, <- powd_mul, zeta_512. clear. induction (2 * Z.to_nat (BitRev8 i) + 1)%nat as [|n IH]. reflexivity.
  cbn [powd]. rewrite IH. reflexivity.
Qed.
Lemma dpowd_1 : forall k, powd 1 k = 1.
Proof. induction k; auto. cbn [powd]. rewrite IHk. reflexivity. Qed.
Lemma dgam_red : forall i e k, (i < 256)%nat -> powd (dgam i) (e + 512 * k) = powd (dgam i) e.
Proof.
  intros i e k H. rewrite <- powd_add, <- powd_mul.
  rewrite (dgam_512 i H), dpowd_1, Z.mul_1_r.
  apply Z.mod_small. apply powd_range.
Qed.
Lemma dorth : forall j j', (j < 256)%nat -> (j' < 256)%nat ->
  zsum 256 (fun i => powd (dgam i) j * powd (powd (dgam i) 511) j') mod dq = if (j =? j')%nat then 256 else 0.
Proof.
  intros j j' H H'.
  set (e := if (j' <=? j)%nat then (j - j')%nat else (512 + j - j')%nat).
  assert (E : forall i, (i < 256)%nat -> (powd (dgam i) j * powd (powd (dgam i) 511) j') mod dq = powd (dgam i) e).
  { intros i Hi. rewrite powd_mul, powd_add.
    replace (j + 511 * j')%nat with (e + 512 * (if (j' <=? j)%nat then j' else j' - 1))%nat. apply dgam_red; auto.
    unfold e. destruct (Nat.leb_spec j' j); lia. }
  rewrite (M_zsum dq dq_pos 256 _ (fun i => powd (dgam i) e)).
  - assert (He : (e < 512)%nat) by (unfold e; destruct (Nat.leb_spec j' j); lia).
    destruct (dgam_sum e He) as [C|C].
    + rewrite C. unfold e. destruct (Nat.leb_spec j' j); destruct (Nat.eqb_spec j j');
        destruct (Nat.eqb_spec (j - j') 0); destruct (Nat.eqb_spec (512 + j - j') 0); try lia; auto.
    + unfold e in C. destruct (Nat.leb_spec j' j); lia.
  - intros i Hi. rewrite E, Z.mod_small; auto. apply powd_range.
Qed.

Theorem dNTTinv_NTT : forall f, length f = 256%nat -> dNTTinv (dNTT f) = M dq f.
Proof.
  intros f L. apply nth_ext0. rewrite dlength_NTTinv, length_M; auto.
  intros j' Hn. rewrite dlength_NTTinv in Hn. rewrite dnth_NTTinv, nth_M by auto.
  assert (S1 : zsum 256 (fun i => nth i (dNTT f) 0 * powd (powd (dgam i) 511) j') mod dq =
    zsum 256 (fun i => zsum 256 (fun j => nth j f 0 * (powd (dgam i) j * powd (powd (dgam i) 511) j'))) mod dq).
  { apply M_zsum. exact dq_pos. intros i Hi. rewrite dnth_NTT by lia.
    rewrite Zmult_mod_idemp_l, <- zsum_mul_r. f_equal. apply zsum_ext. intros. lia. }
  rewrite Z.mul_mod, S1, zsum_swap, <- Z.mul_mod by (unfold dq; lia).
  rewrite Z.mul_mod by (unfold dq; lia).
  rewrite (M_zsum dq dq_pos 256 _ (fun j => if (j =? j')%nat then (fun j => nth j f 0 * 256) j else 0)).
  - rewrite zsum_delta by auto. rewrite <- Z.mul_mod by (unfold dq; lia).
    replace (8347681 * (nth j' f 0 * 256)) with (nth j' f 0 + nth j' f 0 * 255 * dq) by (unfold dq; lia).
    rewrite Z_mod_plus_full. reflexivity.
  - intros j Hj. rewrite zsum_mul. rewrite Z.mul_mod, dorth, <- (Z.mod_small 256 dq) by (auto; unfold dq; lia).
    destruct (j =? j')%nat. rewrite <- Z.mul_mod by (unfold dq; lia). reflexivity.
    rewrite Z.mul_0_r. reflexivity.
Qed.

(** congruence of the spec functions *)
Lemma dNTT_M : forall f g, M dq f = M dq g -> dNTT f = dNTT g.
Proof.
  intros f g H. apply nth_ext0. rewrite !dlength_NTT; auto. intros n Hn. rewrite dlength_NTT in Hn.
  rewrite !dnth_NTT by auto. apply M_zsum. exact dq_pos. intros j Hj.
  rewrite Z.mul_mod, (M_nth dq f g _ H), <- Z.mul_mod by (unfold dq; lia). reflexivity.
Qed.
Lemma dNTTinv_M : forall f g, M dq f = M dq g -> dNTTinv f = dNTTinv g.
Proof.
  intros f g H. apply nth_ext0. rewrite !dlength_NTTinv; auto. intros n Hn. rewrite dlength_NTTinv in Hn.
  rewrite !dnth_NTTinv by auto. rewrite Z.mul_mod, (Z.mul_mod _ (zsum 256 (fun i => nth _ g 0 * _))) by (unfold dq; lia).
  do 2 f_equal. apply M_zsum. exact dq_pos. intros j Hj.
  rewrite Z.mul_mod, (M_nth dq f g _ H), <- Z.mul_mod by (unfold dq; lia). reflexivity.
Qed.
Lemma dMul_M : forall f f' g g', M dq f = M dq f' -> M dq g = M dq g' -> dMul f g = dMul f' g'.
Proof.
  intros f f' g g' H1 H2. unfold dMul. apply map_ext. intros n.
  rewrite Z.mul_mod, (M_nth dq f f' n H1), (M_nth dq g g' n H2), <- Z.mul_mod by (unfold dq; lia). reflexivity.
Qed.
Lemma dM_NTT : forall f, M dq (dNTT f) = dNTT f.
Proof. intros. unfold dNTT, M. rewrite map_map. apply map_ext. intros. apply Z.mod_mod. unfold dq; lia. Qed.
Lemma dM_NTTinv : forall f, M dq (dNTTinv f) = dNTTinv f.
Proof. intros. unfold dNTTinv, M. rewrite map_map. apply map_ext. intros. apply Z.mod_mod. unfold dq; lia. Qed.
Lemma dM_Mul : forall f g, M dq (dMul f g) = dMul f g.
Proof. intros. unfold dMul, M. rewrite map_map. apply map_ext. intros n. apply Z.mod_mod; unfold dq; lia. Qed.

(** linearity *)
Lemma dNTTinv_pscale : forall c f, dNTTinv (pscale c f) = M dq (pscale c (dNTTinv f)).
Proof.
  intros c f. apply nth_ext0. rewrite length_M, length_pscale, !dlength_NTTinv; auto.
  intros n Hn. rewrite dlength_NTTinv in Hn. rewrite nth_M, nth_pscale, !dnth_NTTinv by auto.
  rewrite Zmult_mod_idemp_r. f_equal.
  rewrite (zsum_ext 256 _ (fun i => c * (nth i f 0 * powd (powd (dgam i) 511) n))), zsum_mul. lia.
  intros i Hi. rewrite nth_pscale. lia.
Qed.
Lemma dNTT_pscale : forall c f, dNTT (pscale c f) = M dq (pscale c (dNTT f)).
Proof.
  intros c f. apply nth_ext0. rewrite length_M, length_pscale, !dlength_NTT; auto.
  intros n Hn. rewrite dlength_NTT in Hn. rewrite nth_M, nth_pscale, !dnth_NTT by auto.
  rewrite Zmult_mod_idemp_r. f_equal.
  rewrite (zsum_ext 256 _ (fun i => c * (nth i f 0 * powd (dgam n) i))), zsum_mul. lia.
  intros i Hi. rewrite nth_pscale. lia.
Qed.
Lemma dpscale_M_inj : forall c c' a b, (c * c') mod dq = 1 -> M dq (pscale c a) = M dq (pscale c b) -> M dq a = M dq b.
Proof.
  intros c c' a b H E. assert (L := M_len dq _ _ E). rewrite !length_pscale in L. apply M_ext; auto.
  intros i Hi. pose proof (M_nth dq _ _ i E) as F. rewrite !nth_pscale in F.
  assert (G : forall x, x mod dq = (c' * (c * x)) mod dq).
  { intros. replace (c' * (c * x)) with ((c * c') * x) by lia. rewrite Z.mul_mod, H, Z.mul_1_l, Z.mod_mod by (unfold dq; lia). reflexivity. }
  rewrite (G (nth i a 0)), (G (nth i b 0)). rewrite Z.mul_mod, F, <- Z.mul_mod by (unfold dq; lia). reflexivity.
Qed.

Theorem dint8_inv : forall g, length g = 256%nat -> M dq (dint8 g) = M dq (pscale 256 (dNTTinv g)).
Proof.
  intros g L.
  assert (H : M dq (dnt8 (dint8 g)) = M dq (pscale 256 g)).
  { exact (nttR_inttR dq dq_pos 1 dz dzi 256 dz_inv 8 1 g ltac:(lia) ltac:(cbn; lia) L). }
  rewrite <- (dNTTinv_NTT (dint8 g)) by (apply length_dint8; auto).
  rewrite <- dNTT_tree by (apply length_dint8; auto). rewrite H.
  rewrite (dNTTinv_M _ (pscale 256 g)) by (apply M_M; exact dq_pos). apply dNTTinv_pscale.
Qed.

Theorem dNTT_NTTinv : forall g, length g = 256%nat -> dNTT (dNTTinv g) = M dq g.
Proof.
  intros g L.
  assert (H : M dq (dnt8 (dint8 g)) = M dq (pscale 256 g)).
  { exact (nttR_inttR dq dq_pos 1 dz dzi 256 dz_inv 8 1 g ltac:(lia) ltac:(cbn; lia) L). }
  rewrite dNTT_tree in H by (apply length_dint8; auto).
  rewrite (dNTT_M _ _ (dint8_inv g L)), dNTT_pscale in H. rewrite <- dM_NTT. apply (dpscale_M_inj 256 8347681); auto.
Qed.

(** ** products *)
Definition dmul8 (a b : list Z) : list Z := mulR 1 dz 8 1 a b.
Lemma slice1_list : forall (l : list Z) s, (s < length l)%nat -> slice l (1 * s) 1 = [nth s l 0].
Proof.
  intros. apply nth_ext0. rewrite length_slice; auto. lia.
  intros i Hi. rewrite length_slice in Hi by lia. unfold slice. rewrite nth_firstn0, nth_skipn0.
  destruct i as [|i]; try lia. destruct (Nat.ltb_spec 0 1); [|lia]. rewrite Nat.mul_1_l, Nat.add_0_r. reflexivity.
Qed.
Theorem dMul_tree : forall a b, length a = 256%nat -> length b = 256%nat -> M dq (dmul8 a b) = dMul a b.
Proof.
  intros a b La Lb. assert (LM : length (dmul8 a b) = 256%nat) by (apply (length_mulR 1 dz 8 1 a b); auto).
  apply nth_ext0. rewrite length_M, dlength_Mul; auto.
  intros n Hn. rewrite length_M, LM in Hn. rewrite nth_M, dnth_Mul by auto.
  pose proof (mulR_leaf 1 dz 8 1 a b n La Lb Hn) as T. fold (dmul8 a b) in T.
  rewrite !slice1_list in T by lia. set (r := rt dz (1 * 2 ^ 8 + n)) in *.
  cbn [pmul rot last removelast padd pscale map zeros repeat length] in T.
  assert (T' : nth n (dmul8 a b) 0 = nth n a 0 * nth n b 0 + 0) by congruence. rewrite T', Z.add_0_r. reflexivity.
Qed.
Lemma dM_conv : forall a b, length a = 256%nat -> length b = 256%nat -> M dq (conv (-1) 256 a b) = M dq (pmul (rt dz 1) a b).
Proof. intros. rewrite pmul_conv by lia. rewrite H0. reflexivity. Qed.
Lemma dnt8_mul : forall a b, length a = 256%nat -> length b = 256%nat ->
  M dq (dnt8 (pmul (rt dz 1) a b)) = M dq (dmul8 (dnt8 a) (dnt8 b)).
Proof.
  intros a b La Lb. assert (B : ((1 + 1) * 2 ^ 8 <= 2 * 256)%nat) by (cbn; lia).
  exact (nttR_mul dq dq_pos 1 dz 256 dz_sq 8 1 a b (le_n 1) B La Lb).
Qed.
Theorem dNTT_mul : forall a b, length a = 256%nat -> length b = 256%nat -> dNTT (dRmul a b) = dMul (dNTT a) (dNTT b).
Proof.
  intros a b La Lb. unfold dRmul. rewrite (dNTT_M _ (pmul (rt dz 1) a b)) by (rewrite M_M by exact dq_pos; apply dM_conv; auto).
  rewrite <- dNTT_tree by (rewrite length_pmul; auto).
  rewrite dnt8_mul by auto. rewrite dMul_tree by (apply length_dnt8; auto).
  apply dMul_M; rewrite dM_NTT; apply dNTT_tree; auto.
Qed.
Theorem dNTTinv_mul : forall a b, length a = 256%nat -> length b = 256%nat -> dNTTinv (dMul (dNTT a) (dNTT b)) = dRmul a b.
Proof.
  intros a b La Lb. rewrite <- dNTT_mul by auto. rewrite dNTTinv_NTT. unfold dRmul. apply M_M. exact dq_pos.
  unfold dRmul. rewrite length_M. unfold conv. rewrite map_length, seq_length. reflexivity.
Qed.
