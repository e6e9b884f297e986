(** The NTT of kyber_ntt.c against the transform of FIPS 203, and the transform against the ring. *)
From Verif Require Import Bytes Words KeccakBytes PolyRing NttLoop NttSim KyberModel KyberSpec KyberArith.
Require Import Lia.

Lemma q_pos : 0 < q.
Proof. reflexivity. Qed.

(** ** sums *)
Lemma zsum_swap : forall n m f, zsum n (fun i => zsum m (fun j => f i j)) = zsum m (fun j => zsum n (fun i => f i j)).
Proof.
  induction n; intros m f; cbn [zsum]. induction m; cbn; lia.
  rewrite IHn, <- zsum_add. reflexivity.
Qed.
Lemma zsum_delta : forall n f j, (j < n)%nat -> zsum n (fun i => if (i =? j)%nat then f i else 0) = f j.
Proof.
  induction n; intros f j H. lia. cbn [zsum]. destruct (Nat.eqb_spec n j) as [->|].
  - rewrite (zsum_ext j _ (fun _ => 0)). rewrite zsum_0. lia. intros i Hi. destruct (Nat.eqb_spec i j); lia.
  - rewrite IHn by lia. lia.
Qed.
Lemma zsum_mul_r : forall n c f, zsum n (fun i => f i * c) = zsum n f * c.
Proof. intros. rewrite Z.mul_comm, <- zsum_mul. apply zsum_ext. intros. lia. Qed.

(** ** powers *)
Lemma powq_pow : forall e b, powq b e mod q = b ^ Z.of_nat e mod q.
Proof.
  induction e; intros b. reflexivity. cbn [powq]. rewrite Nat2Z.inj_succ, Z.pow_succ_r by lia.
  rewrite Z.mod_mod by (unfold q; lia). rewrite Z.mul_mod, IHe, <- Z.mul_mod by (unfold q; lia). reflexivity.
Qed.
Lemma powq_range : forall e b, 0 <= powq b e < q.
Proof. destruct e; intros; cbn [powq]. unfold q; lia. apply Z.mod_pos_bound. reflexivity. Qed.
Lemma powq_eq : forall e b, powq b e = b ^ Z.of_nat e mod q.
Proof. intros. rewrite <- powq_pow, Z.mod_small; auto. apply powq_range. Qed.
Lemma pow_modq : forall a b e, a mod q = b mod q -> (a ^ Z.of_nat e) mod q = (b ^ Z.of_nat e) mod q.
Proof.
  intros a b e H. induction e. reflexivity.
  rewrite Nat2Z.inj_succ, !Z.pow_succ_r by lia.
  rewrite Z.mul_mod, H, IHe, <- Z.mul_mod by (unfold q; lia). reflexivity.
Qed.
Lemma powq_modl : forall a b e, a mod q = b mod q -> powq a e = powq b e.
Proof. intros. rewrite !powq_eq. apply pow_modq. auto. Qed.
Lemma powq_add : forall a b x, (powq x a * powq x b) mod q = powq x (a + b).
Proof.
  intros. rewrite !powq_eq, <- Z.mul_mod by (unfold q; lia). rewrite Nat2Z.inj_add, Z.pow_add_r by lia. reflexivity.
Qed.
Lemma powq_mul : forall a b x, powq (powq x a) b = powq x (a * b).
Proof.
  intros. rewrite (powq_modl _ (x ^ Z.of_nat a)).
  - rewrite !powq_eq, Nat2Z.inj_mul, Z.pow_mul_r by lia. reflexivity.
  - apply powq_pow.
Qed.

(** ** the roots *)
Definition kz (k : nat) : Z := 169 * kzeta k.
Definition kzi (k : nat) : Z := - 169 * kzeta (mir k).

Lemma nat_range : forall n (f : nat -> bool), forallb f (seq 0 n) = true -> forall i, (i < n)%nat -> f i = true.
Proof. intros n f H i Hi. rewrite forallb_forall in H. apply H. apply in_seq. lia. Qed.

Lemma kz_sq_chk : forallb (fun k => ((k =? 0)%nat || ((kz k * kz k) mod q =? rt kz k mod q))) (seq 0 128) = true.
Proof. vm_compute. reflexivity. Qed.
Lemma kz_sq : forall k, (1 <= k < 128)%nat -> (kz k * kz k) mod q = rt kz k mod q.
Proof.
  intros k H. pose proof (nat_range _ _ kz_sq_chk k ltac:(lia)) as E. apply orb_prop in E. destruct E as [E|E].
  apply Nat.eqb_eq in E; lia. apply Z.eqb_eq in E. auto.
Qed.
Lemma kz_inv_chk : forallb (fun k => ((k =? 0)%nat || ((kz k * kzi k) mod q =? 1 mod q))) (seq 0 128) = true.
Proof. vm_compute. reflexivity. Qed.
Lemma kz_inv : forall k, (1 <= k < 128)%nat -> (kz k * kzi k) mod q = 1 mod q.
Proof.
  intros k H. pose proof (nat_range _ _ kz_inv_chk k ltac:(lia)) as E. apply orb_prop in E. destruct E as [E|E].
  apply Nat.eqb_eq in E; lia. apply Z.eqb_eq in E. auto.
Qed.
Lemma leaf_chk : forallb (fun s => rt kz (1 * 2 ^ 7 + s) mod q =? gam s) (seq 0 128) = true.
Proof. vm_compute. reflexivity. Qed.
Lemma leaf_gam : forall s, (s < 128)%nat -> rt kz (1 * 2 ^ 7 + s) mod q = gam s.
Proof. intros. apply Z.eqb_eq. apply (nat_range _ _ leaf_chk). auto. Qed.
Lemma kzeta_range_chk : forallb (fun k => (-1664 <=? kzeta k) && (kzeta k <=? 1664)) (seq 0 128) = true.
Proof. vm_compute. reflexivity. Qed.
Lemma kzeta_range : forall k, -1664 <= kzeta k <= 1664.
Proof.
  intros k. destruct (Nat.lt_ge_cases k 128).
  - pose proof (nat_range _ _ kzeta_range_chk k H) as E. apply andb_prop in E. lia.
  - unfold kzeta. rewrite nth_overflow. lia. cbn [length kyber_zetas]. lia.
Qed.

(** ** the transform of the standard is the reduction tree *)
Definition ntt7 (f : list Z) : list Z := nttR 2 kz 7 1 f.
Definition intt7 (f : list Z) : list Z := inttR 2 kzi 7 1 f.

Lemma length_ntt7 : forall f, length f = 256%nat -> length (ntt7 f) = 256%nat.
Proof. intros. apply (length_nttR 2 kz 7 1 f). auto. Qed.
Lemma length_intt7 : forall f, length f = 256%nat -> length (intt7 f) = 256%nat.
Proof. intros. apply (length_inttR 2 kzi 7 1 f). auto. Qed.
Lemma length_NTT : forall f, length (NTT f) = 256%nat.
Proof. intros. unfold NTT. rewrite map_length. apply seq_length. Qed.
Lemma length_NTTinv : forall f, length (NTTinv f) = 256%nat.
Proof. intros. unfold NTTinv. rewrite map_length. apply seq_length. Qed.
Lemma length_Mul : forall f g, length (MultiplyNTTs f g) = 256%nat.
Proof. intros. unfold MultiplyNTTs. rewrite map_length. apply seq_length. Qed.
Lemma nth_NTT : forall f n, (n < 256)%nat ->
  nth n (NTT f) 0 = zsum 128 (fun j => nth (2 * j + n mod 2) f 0 * powq (gam (n / 2)) j) mod q.
Proof.
  intros f n H. unfold NTT.
  exact (nth_map_seq (fun n => zsum 128 (fun j => nth (2 * j + n mod 2) f 0 * powq (gam (n / 2)) j) mod q) 0 256 n 0 H).
Qed.
Lemma nth_NTTinv : forall g n, (n < 256)%nat ->
  nth n (NTTinv g) 0 = (3303 * zsum 128 (fun i => nth (2 * i + n mod 2) g 0 * powq (powq (gam i) 255) (n / 2))) mod q.
Proof.
  intros g n H. unfold NTTinv.
  exact (nth_map_seq (fun n => (3303 * zsum 128 (fun i => nth (2 * i + n mod 2) g 0 * powq (powq (gam i) 255) (n / 2))) mod q) 0 256 n 0 H).
Qed.

Lemma divmod2 : forall n, (n < 256)%nat -> (n = 2 * (n / 2) + n mod 2 /\ n / 2 < 128 /\ n mod 2 < 2)%nat.
Proof.
  intros n H. assert (E := Nat.div_mod n 2 ltac:(lia)). assert (F := Nat.mod_upper_bound n 2 ltac:(lia)).
  split; [auto|]. split; [|auto]. apply Nat.div_lt_upper_bound; lia.
Qed.

Theorem NTT_tree : forall f, length f = 256%nat -> M q (ntt7 f) = NTT f.
Proof.
  intros f L. apply nth_ext0. rewrite length_M, length_ntt7, length_NTT; auto.
  intros n Hn. rewrite length_M, length_ntt7 in Hn by auto. rewrite nth_M, nth_NTT by auto.
  destruct (divmod2 n Hn) as [E [H1 H2]]. set (s := (n / 2)%nat) in *. set (i := (n mod 2)%nat) in *.
  rewrite E at 1. unfold ntt7.
  rewrite (nttR_leaf q q_pos 2 kz 128 kz_sq 7 1 f s i); auto.
  change (2 ^ 7)%nat with 128%nat. apply M_zsum. exact q_pos. intros j Hj.
  rewrite Z.mul_comm. rewrite Z.mul_mod, (Z.mul_mod (nth _ f 0) (powq _ _)) by (unfold q; lia). do 2 f_equal.
  rewrite powq_pow. apply pow_modq. pose proof (leaf_gam s H1) as G. change (1 * 2 ^ 7 + s)%nat with (1 * 128 + s)%nat in G.
  rewrite <- G. rewrite Z.mod_mod by (unfold q; lia). reflexivity.

Qed.

(** ** orthogonality *)
Fixpoint mul_each (a b : list Z) : list Z :=
  match a, b with x :: a', y :: b' => ((x * y) mod q) :: mul_each a' b' | _, _ => [] end.
Fixpoint ochk (n e : nat) (gs ps : list Z) : bool :=
  match n with
  | O => true
  | S n' => ((fold_right Z.add 0 ps mod q =? (if (e =? 0)%nat then 128 else 0)) || (e =? 128)%nat) && ochk n' (S e) gs (mul_each gs ps)
  end.
Lemma mul_each_powq : forall l e, mul_each (map gam l) (map (fun i => powq (gam i) e) l) = map (fun i => powq (gam i) (S e)) l.
Proof. induction l; intros; cbn [map mul_each]; auto. rewrite IHl. reflexivity. Qed.
Lemma zsum_fold : forall n a f, fold_right Z.add 0 (map f (seq a n)) = zsum n (fun i => f (a + i)%nat).
Proof.
  induction n; intros a f. reflexivity. cbn [seq map fold_right]. rewrite IHn, zsum_S_l, Nat.add_0_r. f_equal.
  apply zsum_ext. intros. f_equal. lia.
Qed.
Lemma ochk_ok : forall n e, ochk n e (map gam (seq 0 128)) (map (fun i => powq (gam i) e) (seq 0 128)) = true ->
  forall e', (e <= e' < e + n)%nat -> zsum 128 (fun i => powq (gam i) e') mod q = (if (e' =? 0)%nat then 128 else 0) \/ e' = 128%nat.
Proof.
  induction n; intros e H e' He. lia. cbn [ochk] in H. apply andb_prop in H. destruct H as [H1 H2].
  rewrite mul_each_powq in H2. destruct (Nat.eq_dec e' e) as [->|].
  - apply orb_prop in H1. destruct H1 as [H1|H1]; [left|right; apply Nat.eqb_eq; auto].
    apply Z.eqb_eq in H1. rewrite zsum_fold in H1. exact H1.
  - apply (IHn (S e)); auto. lia.
Qed.
Lemma orth_chk : ochk 256 0 (map gam (seq 0 128)) (map (fun i => powq (gam i) 0) (seq 0 128)) = true.
Proof. vm_compute. reflexivity. Qed.
Lemma gam_256_chk : forallb (fun i => powq (gam i) 256 =? 1) (seq 0 128) = true.
Proof. vm_compute. reflexivity. Qed.
Lemma powq_1 : forall k, powq 1 k = 1.
Proof. induction k; auto. cbn [powq]. rewrite IHk. reflexivity. Qed.
Lemma gam_red : forall i e k, (i < 128)%nat -> powq (gam i) (e + 256 * k) = powq (gam i) e.
Proof.
  intros i e k H. rewrite <- powq_add, <- powq_mul.
  pose proof (nat_range _ _ gam_256_chk i H) as E. apply Z.eqb_eq in E. rewrite E, powq_1, Z.mul_1_r.
  apply Z.mod_small. apply powq_range.
Qed.
Lemma orth : forall j j', (j < 128)%nat -> (j' < 128)%nat ->
  zsum 128 (fun i => powq (gam i) j * powq (powq (gam i) 255) j') mod q = if (j =? j')%nat then 128 else 0.
Proof.
  intros j j' H H'.
  set (e := if (j' <=? j)%nat then (j - j')%nat else (256 + j - j')%nat).
  assert (E : forall i, (i < 128)%nat -> (powq (gam i) j * powq (powq (gam i) 255) j') mod q = powq (gam i) e).
  { intros i Hi. rewrite powq_mul, powq_add.
    replace (j + 255 * j')%nat with (e + 256 * (if (j' <=? j)%nat then j' else j' - 1))%nat. apply gam_red; auto.
    unfold e. destruct (Nat.leb_spec j' j); lia. }
  rewrite (M_zsum q q_pos 128 _ (fun i => powq (gam i) e)).
  - assert (He : (e < 256)%nat) by (unfold e; destruct (Nat.leb_spec j' j); lia).
    destruct (ochk_ok _ _ orth_chk e ltac:(lia)) as [C|C].
    + rewrite C. unfold e. destruct (Nat.leb_spec j' j); destruct (Nat.eqb_spec j j');
        destruct (Nat.eqb_spec (j - j') 0); destruct (Nat.eqb_spec (256 + j - j') 0); try lia; auto.
    + unfold e in C. destruct (Nat.leb_spec j' j); lia.
  - intros i Hi. rewrite E, Z.mod_small; auto. apply powq_range.
Qed.

Theorem NTTinv_NTT : forall f, length f = 256%nat -> NTTinv (NTT f) = M q f.
Proof.
  intros f L. apply nth_ext0. rewrite length_NTTinv, length_M; auto.
  intros n Hn. rewrite length_NTTinv in Hn. rewrite nth_NTTinv, nth_M by auto.
  destruct (divmod2 n Hn) as [E [H1 H2]]. set (j' := (n / 2)%nat) in *. set (b := (n mod 2)%nat) in *.
  assert (S1 : zsum 128 (fun i => nth (2 * i + b) (NTT f) 0 * powq (powq (gam i) 255) j') mod q =
    zsum 128 (fun i => zsum 128 (fun j => nth (2 * j + b) f 0 * (powq (gam i) j * powq (powq (gam i) 255) j'))) mod q).
  { apply M_zsum. exact q_pos. intros i Hi. rewrite nth_NTT by lia.
    replace ((2 * i + b) mod 2)%nat with b by (rewrite Nat.add_comm, Nat.mul_comm, Nat.mod_add, Nat.mod_small; lia).
    replace ((2 * i + b) / 2)%nat with i by (rewrite Nat.mul_comm, Nat.div_add_l, Nat.div_small; lia).
    rewrite Zmult_mod_idemp_l, <- zsum_mul_r. f_equal. apply zsum_ext. intros. lia. }
  rewrite Z.mul_mod, S1, zsum_swap, <- Z.mul_mod by (unfold q; lia).
  rewrite Z.mul_mod by (unfold q; lia).
  rewrite (M_zsum q q_pos 128 _ (fun j => if (j =? j')%nat then (fun j => nth (2 * j + b) f 0 * 128) j else 0)).
  - rewrite zsum_delta by auto. rewrite <- Z.mul_mod by (unfold q; lia).
    replace (3303 * (nth (2 * j' + b) f 0 * 128)) with (nth (2 * j' + b) f 0 + nth (2 * j' + b) f 0 * 127 * q) by (unfold q; lia).
    rewrite Z_mod_plus_full, <- E. reflexivity.
  - intros j Hj. rewrite zsum_mul. rewrite Z.mul_mod, orth, <- (Z.mod_small 128 q) by (auto; unfold q; lia).
    destruct (j =? j')%nat. rewrite <- Z.mul_mod by (unfold q; lia). reflexivity.
    rewrite Z.mul_0_r. reflexivity.
Qed.

(** congruence of the spec functions *)
Lemma NTT_M : forall f g, M q f = M q g -> NTT f = NTT g.
Proof.
  intros f g H. apply nth_ext0. rewrite !length_NTT; auto. intros n Hn. rewrite length_NTT in Hn.
  rewrite !nth_NTT by auto. apply M_zsum. exact q_pos. intros j Hj.
  rewrite Z.mul_mod, (M_nth q f g _ H), <- Z.mul_mod by (unfold q; lia). reflexivity.
Qed.
Lemma NTTinv_M : forall f g, M q f = M q g -> NTTinv f = NTTinv g.
Proof.
  intros f g H. apply nth_ext0. rewrite !length_NTTinv; auto. intros n Hn. rewrite length_NTTinv in Hn.
  rewrite !nth_NTTinv by auto. rewrite Z.mul_mod, (Z.mul_mod _ (zsum 128 (fun i => nth _ g 0 * _))) by (unfold q; lia).
  do 2 f_equal. apply M_zsum. exact q_pos. intros j Hj.
  rewrite Z.mul_mod, (M_nth q f g _ H), <- Z.mul_mod by (unfold q; lia). reflexivity.
Qed.
Lemma Mul_M : forall f f' g g', M q f = M q f' -> M q g = M q g' -> MultiplyNTTs f g = MultiplyNTTs f' g'.
Proof.
  intros f f' g g' H1 H2. unfold MultiplyNTTs. apply map_ext. intros n. cbv zeta.
  assert (A : forall i j c, (nth i f 0 * nth j g 0 * c) mod q = (nth i f' 0 * nth j g' 0 * c) mod q).
  { intros. rewrite Z.mul_mod, (Z.mul_mod (nth i f 0)), (M_nth q f f' i H1), (M_nth q g g' j H2), <- (Z.mul_mod (nth i f' 0)), <- Z.mul_mod by (unfold q; lia). reflexivity. }
  assert (B : forall i j, (nth i f 0 * nth j g 0) mod q = (nth i f' 0 * nth j g' 0) mod q).
  { intros. specialize (A i j 1). rewrite !Z.mul_1_r in A. auto. }
  destruct (n mod 2 =? 0)%nat.
  - rewrite Z.add_mod, A, B, <- Z.add_mod by (unfold q; lia). reflexivity.
  - rewrite Z.add_mod, !B, <- Z.add_mod by (unfold q; lia). reflexivity.
Qed.
Lemma M_NTT : forall f, M q (NTT f) = NTT f.
Proof. intros. unfold NTT, M. rewrite map_map. apply map_ext. intros. apply Z.mod_mod. unfold q; lia. Qed.
Lemma M_NTTinv : forall f, M q (NTTinv f) = NTTinv f.
Proof. intros. unfold NTTinv, M. rewrite map_map. apply map_ext. intros. apply Z.mod_mod. unfold q; lia. Qed.
Lemma M_Mul : forall f g, M q (MultiplyNTTs f g) = MultiplyNTTs f g.
Proof.
  intros. unfold MultiplyNTTs, M. rewrite map_map. apply map_ext. intros n. cbv zeta.
  destruct (n mod 2 =? 0)%nat; apply Z.mod_mod; unfold q; lia.
Qed.

(** linearity *)
Lemma NTTinv_pscale : forall c f, NTTinv (pscale c f) = M q (pscale c (NTTinv f)).
Proof.
  intros c f. apply nth_ext0. rewrite length_M, length_pscale, !length_NTTinv; auto.
  intros n Hn. rewrite length_NTTinv in Hn. rewrite nth_M, nth_pscale, !nth_NTTinv by auto.
  rewrite Zmult_mod_idemp_r. f_equal.
  rewrite (zsum_ext 128 _ (fun i => c * (nth (2 * i + n mod 2) f 0 * powq (powq (gam i) 255) (n / 2)))), zsum_mul. lia.
  intros i Hi. rewrite nth_pscale. lia.
Qed.
Lemma NTT_pscale : forall c f, NTT (pscale c f) = M q (pscale c (NTT f)).
Proof.
  intros c f. apply nth_ext0. rewrite length_M, length_pscale, !length_NTT; auto.
  intros n Hn. rewrite length_NTT in Hn. rewrite nth_M, nth_pscale, !nth_NTT by auto.
  rewrite Zmult_mod_idemp_r. f_equal.
  rewrite (zsum_ext 128 _ (fun i => c * (nth (2 * i + n mod 2) f 0 * powq (gam (n / 2)) i))), zsum_mul. lia.
  intros i Hi. rewrite nth_pscale. lia.
Qed.

Lemma pscale_M_inj : forall c c' a b, (c * c') mod q = 1 -> M q (pscale c a) = M q (pscale c b) -> M q a = M q b.
Proof.
  intros c c' a b H E. assert (L := M_len q _ _ E). rewrite !length_pscale in L. apply M_ext; auto.
  intros i Hi. pose proof (M_nth q _ _ i E) as F. rewrite !nth_pscale in F.
  assert (G : forall x, x mod q = (c' * (c * x)) mod q).
  { intros. replace (c' * (c * x)) with ((c * c') * x) by lia. rewrite Z.mul_mod, H, Z.mul_1_l, Z.mod_mod by (unfold q; lia). reflexivity. }
  rewrite (G (nth i a 0)), (G (nth i b 0)). rewrite Z.mul_mod, F, <- Z.mul_mod by (unfold q; lia). reflexivity.
Qed.

Theorem intt7_inv : forall g, length g = 256%nat -> M q (intt7 g) = M q (pscale 128 (NTTinv g)).
Proof.
  intros g L.
  assert (H : M q (ntt7 (intt7 g)) = M q (pscale 128 g)).
  { exact (nttR_inttR q q_pos 2 kz kzi 128 kz_inv 7 1 g ltac:(lia) ltac:(cbn; lia) L). }
  rewrite <- (NTTinv_NTT (intt7 g)) by (apply length_intt7; auto).
  rewrite <- NTT_tree by (apply length_intt7; auto). rewrite H.
  rewrite (NTTinv_M _ (pscale 128 g)) by (apply M_M; exact q_pos). apply NTTinv_pscale.
Qed.

Theorem NTT_NTTinv : forall g, length g = 256%nat -> NTT (NTTinv g) = M q g.
Proof.
  intros g L.
  assert (H : M q (ntt7 (intt7 g)) = M q (pscale 128 g)).
  { exact (nttR_inttR q q_pos 2 kz kzi 128 kz_inv 7 1 g ltac:(lia) ltac:(cbn; lia) L). }
  rewrite NTT_tree in H by (apply length_intt7; auto).
  rewrite (NTT_M _ _ (intt7_inv g L)), NTT_pscale in H. rewrite <- M_NTT. apply (pscale_M_inj 128 3303); auto.
Qed.

(** ** products *)
Lemma nth_slice2 : forall (l : list Z) s i, (i < 2)%nat -> nth i (slice l (2 * s) 2) 0 = nth (2 * s + i) l 0.
Proof. intros. unfold slice. rewrite nth_firstn0, nth_skipn0. destruct (Nat.ltb_spec i 2); [auto|lia]. Qed.
Lemma slice2_list : forall (l : list Z) s, (2 * s + 2 <= length l)%nat -> slice l (2 * s) 2 = [nth (2 * s) l 0; nth (2 * s + 1) l 0].
Proof.
  intros. apply nth_ext0. rewrite length_slice; auto.
  intros i Hi. rewrite length_slice in Hi by auto. rewrite nth_slice2 by auto.
  destruct i as [|[|i]]; try lia. rewrite Nat.add_0_r. reflexivity. reflexivity.
Qed.
Lemma nth_Mul : forall a b n, (n < 256)%nat -> nth n (MultiplyNTTs a b) 0 = (fun n => let i := (n / 2)%nat in
    if (n mod 2 =? 0)%nat
    then (nth (2 * i) a 0 * nth (2 * i) b 0 + nth (2 * i + 1) a 0 * nth (2 * i + 1) b 0 * gam i) mod q
    else (nth (2 * i) a 0 * nth (2 * i + 1) b 0 + nth (2 * i + 1) a 0 * nth (2 * i) b 0) mod q) n.
Proof. intros a b n H. unfold MultiplyNTTs. exact (nth_map_seq (fun n => let i := (n / 2)%nat in
    if (n mod 2 =? 0)%nat
    then (nth (2 * i) a 0 * nth (2 * i) b 0 + nth (2 * i + 1) a 0 * nth (2 * i + 1) b 0 * gam i) mod q
    else (nth (2 * i) a 0 * nth (2 * i + 1) b 0 + nth (2 * i + 1) a 0 * nth (2 * i) b 0) mod q) 0 256 n 0 H). Qed.
Definition mul7 (a b : list Z) : list Z := mulR 2 kz 7 1 a b.
Theorem Mul_tree : forall a b, length a = 256%nat -> length b = 256%nat -> M q (mul7 a b) = MultiplyNTTs a b.
Proof.
  intros a b La Lb. assert (LM : length (mul7 a b) = 256%nat) by (apply (length_mulR 2 kz 7 1 a b); auto).
  apply nth_ext0. rewrite length_M, length_Mul; auto.
  intros n Hn. rewrite length_M, LM in Hn. rewrite nth_M, nth_Mul by auto.
  cbv beta zeta. destruct (divmod2 n Hn) as [E [H1 H2]]. set (s := (n / 2)%nat) in *. set (i := (n mod 2)%nat) in *.
  rewrite E at 1. rewrite <- nth_slice2 by auto. unfold mul7.
  rewrite (mulR_leaf 2 kz 7 1 a b s) by auto. rewrite !slice2_list by lia.
  pose proof (leaf_gam s H1) as G. set (r := rt kz (1 * 2 ^ 7 + s)) in *. cbn [pmul rot last removelast padd pscale map zeros repeat length].
  set (a0 := nth (2 * s) a 0). set (a1 := nth (2 * s + 1) a 0). set (b0 := nth (2 * s) b 0). set (b1 := nth (2 * s + 1) b 0).
  destruct i as [|[|i]]; [| |lia]; cbn [Nat.eqb nth].
  - replace (a0 * b0 + (a1 * (r * b1) + 0)) with (a0 * b0 + a1 * b1 * r) by lia.
    rewrite Z.add_mod, Z.mul_mod, (Z.mul_mod (a1 * b1)), <- G, (Z.add_mod _ (a1 * b1 * (r mod q))), (Z.mul_mod a0), (Z.mul_mod (a1 * b1) (r mod q)), !Z.mod_mod by (unfold q; lia). reflexivity.
  - f_equal. lia.
Qed.

Lemma M_conv : forall a b, length a = 256%nat -> length b = 256%nat -> M q (conv (-1) 256 a b) = M q (pmul (rt kz 1) a b).
Proof. intros. rewrite pmul_conv by lia. rewrite H0. reflexivity. Qed.
Lemma ntt7_mul : forall a b, length a = 256%nat -> length b = 256%nat ->
  M q (ntt7 (pmul (rt kz 1) a b)) = M q (mul7 (ntt7 a) (ntt7 b)).
Proof.
  intros a b La Lb. assert (B : ((1 + 1) * 2 ^ 7 <= 2 * 128)%nat) by (cbn; lia).
  exact (nttR_mul q q_pos 2 kz 128 kz_sq 7 1 a b (le_n 1) B La Lb).
Qed.
Theorem NTT_mul : forall a b, length a = 256%nat -> length b = 256%nat -> NTT (Rmul a b) = MultiplyNTTs (NTT a) (NTT b).
Proof.
  intros a b La Lb. unfold Rmul. rewrite (NTT_M _ (pmul (rt kz 1) a b)) by (rewrite M_M by exact q_pos; apply M_conv; auto).
  rewrite <- NTT_tree by (rewrite length_pmul; auto).
  rewrite ntt7_mul by auto. rewrite Mul_tree by (apply length_ntt7; auto).
  apply Mul_M; rewrite M_NTT; apply NTT_tree; auto.
Qed.
Theorem NTTinv_mul : forall a b, length a = 256%nat -> length b = 256%nat -> NTTinv (MultiplyNTTs (NTT a) (NTT b)) = Rmul a b.
Proof.
  intros a b La Lb. rewrite <- NTT_mul by auto. rewrite NTTinv_NTT. unfold Rmul. apply M_M. exact q_pos.
  unfold Rmul. rewrite length_M. unfold conv. rewrite map_length, seq_length. reflexivity.
Qed.
