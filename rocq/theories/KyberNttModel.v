(** The C transform functions compute the transform of the standard. *)
From Verif Require Import Bytes Words KeccakBytes PolyRing NttLoop NttSim KyberModel KyberSpec KyberArith KyberNtt.
Require Import Lia.

Definition polyw (B : Z) (f : list Z) : Prop := length f = 256%nat /\ within B f.

(** ** forward *)
Definition bndf (l : nat) : Z := 3328 * (Z.of_nat l + 1).
Lemma bndf_pos : forall l, 0 <= bndf l.
Proof. intros. unfold bndf. lia. Qed.
Lemma kct_bf : forall l k x y, (l < 7)%nat -> - bndf l <= x <= bndf l -> - bndf l <= y <= bndf l ->
  k_ct (kzeta k) x y = (x + fqmul (kzeta k) y, x - fqmul (kzeta k) y) /\
  (-109084672 <= kzeta k * y <= 109084671) /\ -3328 <= fqmul (kzeta k) y <= 3328 /\
  - bndf (S l) <= x + fqmul (kzeta k) y <= bndf (S l) /\ - bndf (S l) <= x - fqmul (kzeta k) y <= bndf (S l) /\ bndf (S l) <= 26624.
Proof.
  intros l k x y Hl Hx Hy. assert (HB : bndf (S l) = bndf l + 3328) by (unfold bndf; lia).
  assert (HC : bndf l <= 23296) by (unfold bndf; lia).
  assert (P : -109084672 <= kzeta k * y <= 109084671).
  { pose proof (prod_bound (kzeta k) y 1664 23296 (kzeta_range k) ltac:(lia)). lia. }
  pose proof (fqmul_range (kzeta k) y P). unfold k_ct. cbv zeta. rewrite !s16_id by lia.
  split; [reflexivity|]. lia.
Qed.
Lemma kct_ok : forall l k x y, (l < 7)%nat -> (1 <= k < 128)%nat -> - bndf l <= x <= bndf l -> - bndf l <= y <= bndf l ->
  fst (k_ct (kzeta k) x y) mod q = (x + kz k * y) mod q /\
  snd (k_ct (kzeta k) x y) mod q = (x + - kz k * y) mod q /\
  - bndf (S l) <= fst (k_ct (kzeta k) x y) <= bndf (S l) /\ - bndf (S l) <= snd (k_ct (kzeta k) x y) <= bndf (S l).
Proof.
  intros l k x y Hl Hk Hx Hy. destruct (kct_bf l k x y Hl Hx Hy) as [E [P [R [B1 [B2 _]]]]]. rewrite E. cbn [fst snd].
  pose proof (fqmul_mod _ _ P) as F. split; [|split; [|auto]].
  - rewrite Z.add_mod, F, <- Z.add_mod by (unfold q; lia). f_equal. unfold kz. lia.
  - rewrite Zminus_mod, F, <- Zminus_mod. f_equal. unfold kz. lia.
Qed.

Lemma kyber_ntt_M : forall f, length f = 256%nat -> kyber_ntt f = nttM k_ct kzeta 2 7 1 f.
Proof. intros f L. unfold kyber_ntt. assert (H2 : (0 < 2)%nat) by lia. assert (H7 : (7 < 256)%nat) by lia.
  exact (loop_down_top k_ct kzeta 2 H2 7 256 f L H7). Qed.

Theorem kyber_ntt_ok : forall f, polyw 3328 f -> M q (kyber_ntt f) = NTT f /\ polyw 26624 (kyber_ntt f).
Proof.
  intros f [L W]. rewrite kyber_ntt_M, <- NTT_tree by auto.
  assert (A : (1 <= 1)%nat) by lia. assert (B : ((1 + 1) * 2 ^ 7 <= 2 * 128)%nat) by (cbn; lia). assert (C : (0 + 7 <= 7)%nat) by lia.
  destruct (nttM_nttR q q_pos k_ct kzeta kz 2 128 bndf 7 bndf_pos kct_ok 7 0 1 f A B C L W) as [H1 [H2 H3]].
  split. exact H1. split. exact H3. exact H2.
Qed.

(** the conversions to int16_t never change a value *)
Definition k_ct_int (zeta x y : Z) : Z * Z := (x + fqmul zeta y, x - fqmul zeta y).
Theorem kyber_ntt_nowrap : forall f, polyw 3328 f -> kyber_ntt f = loop_down k_ct_int kzeta S 256 256 2 128 1 f.
Proof.
  intros f [L W]. rewrite kyber_ntt_M by auto. assert (H2 : (0 < 2)%nat) by lia. assert (H7 : (7 < 256)%nat) by lia.
  transitivity (nttM k_ct_int kzeta 2 7 1 f).
  - apply (nttM_agree k_ct k_ct_int kzeta 2 bndf 7) with (l := 0%nat); auto.
    intros l k x y Hl Hx Hy. destruct (kct_bf l k x y Hl Hx Hy) as [E [P [R [B1 [B2 _]]]]]. rewrite E. auto.
  - symmetry. exact (loop_down_top k_ct_int kzeta 2 H2 7 256 f L H7).
Qed.

(** ** inverse *)
Definition bndi (l : nat) : Z := match l with O => 16383 | _ => 3328 end.
Lemma bndi_pos : forall l, 0 <= bndi l.
Proof. destruct l; cbn; lia. Qed.
Lemma kgs_bf : forall l k x y, - bndi l <= x <= bndi l -> - bndi l <= y <= bndi l ->
  k_gs (kzeta k) x y = (barrett_reduce (x + y), fqmul (kzeta k) (y - x)) /\
  -32768 <= x + y <= 32767 /\ -32768 <= y - x <= 32767 /\ (-109084672 <= kzeta k * (y - x) <= 109084671) /\
  -1664 <= barrett_reduce (x + y) <= 1664 /\ -3328 <= fqmul (kzeta k) (y - x) <= 3328.
Proof.
  intros l k x y Hx Hy. assert (HC : bndi l <= 16383) by (destruct l; cbn; lia).
  assert (P : -109084672 <= kzeta k * (y - x) <= 109084671).
  { pose proof (prod_bound (kzeta k) (y - x) 1664 32766 (kzeta_range k) ltac:(lia)). lia. }
  unfold k_gs. rewrite !s16_id by lia. split; [reflexivity|]. split; [lia|]. split; [lia|]. split; [auto|].
  split. apply barrett_range; lia. apply fqmul_range; auto.
Qed.
Lemma kgs_ok : forall l k x y, (l < 7)%nat -> (1 <= k < 128)%nat -> - bndi l <= x <= bndi l -> - bndi l <= y <= bndi l ->
  fst (k_gs (kzeta (mir k)) x y) mod q = (x + y) mod q /\
  snd (k_gs (kzeta (mir k)) x y) mod q = (kzi k * (x - y)) mod q /\
  - bndi (S l) <= fst (k_gs (kzeta (mir k)) x y) <= bndi (S l) /\ - bndi (S l) <= snd (k_gs (kzeta (mir k)) x y) <= bndi (S l).
Proof.
  intros l k x y Hl Hk Hx Hy. destruct (kgs_bf l (mir k) x y Hx Hy) as [E [P [P' [PP [R1 R2]]]]]. rewrite E. cbn [fst snd bndi].
  split. apply barrett_mod; auto. split. rewrite fqmul_mod by auto. f_equal. unfold kzi. lia. lia.
Qed.
Lemma kyber_invntt_M : forall f, length f = 256%nat -> kyber_invntt f = map (fun x => fqmul x 1441) (inttM k_gs kzeta 2 7 1 f).
Proof. intros f L. unfold kyber_invntt. assert (H2 : (0 < 2)%nat) by lia. assert (H7 : (7 < 256)%nat) by lia.
  apply f_equal. exact (loop_up_top k_gs kzeta 2 H2 7 256 f L H7). Qed.

Lemma within_map : forall (g : Z -> Z) B B' f, (forall x, - B <= x <= B -> - B' <= g x <= B') -> within B f -> within B' (map g f).
Proof. intros. apply Forall_map. eapply Forall_impl; [|eauto]. auto. Qed.
Lemma M_map : forall (g h : Z -> Z) B f, (forall x, - B <= x <= B -> g x mod q = h x mod q) -> within B f -> M q (map g f) = M q (map h f).
Proof. intros g h B f H W. unfold M. rewrite !map_map. apply map_ext_in. intros x Hx. apply H. unfold within in W. rewrite Forall_forall in W. auto. Qed.

Lemma f1441 : forall x, -3328 <= x <= 3328 -> fqmul x 1441 mod q = (512 * x) mod q /\ -3328 <= fqmul x 1441 <= 3328.
Proof.
  intros x H. assert (P : -109084672 <= x * 1441 <= 109084671) by lia. split; [|apply fqmul_range; auto].
  rewrite fqmul_mod by auto. replace (169 * (x * 1441)) with (512 * x + x * 73 * q) by (unfold q; lia). apply Z_mod_plus_full.
Qed.
Lemma intt7_eq : forall f, intt7 f = inttR 2 kzi 7 1 f.
Proof. reflexivity. Qed.
Theorem kyber_invntt_ok : forall g, polyw 16383 g ->
  M q (kyber_invntt g) = M q (pscale 65536 (NTTinv g)) /\ polyw 3328 (kyber_invntt g).
Proof.
  intros f [L W]. rewrite kyber_invntt_M by auto.
  assert (A : (1 <= 1)%nat) by lia. assert (B : ((1 + 1) * 2 ^ 7 <= 2 * 128)%nat) by (cbn; lia). assert (C : (7 <= 7)%nat) by lia.
  assert (H2 : (0 < 2)%nat) by lia.
  destruct (inttM_inttR q q_pos k_gs kzeta kzi 2 128 H2 bndi 7 bndi_pos kgs_ok 7 1 f A B C L W) as [H1 H3].
  assert (L' : length (inttM k_gs kzeta 2 7 1 f) = 256%nat) by (exact (length_inttM k_gs kzeta 2 H2 7 1 f L)).
  set (r := inttM k_gs kzeta 2 7 1 f) in *. change (within 3328 r) in H3. rewrite <- intt7_eq in H1.
  rewrite (intt7_inv f L) in H1. clearbody r. set (g := NTTinv f) in *. clearbody g.
  split; [|split].
  - rewrite (M_map _ (fun x => 512 * x) 3328); auto.
    2:{ intros. apply f1441. auto. }
    change (map (fun x => 512 * x) r) with (pscale 512 r).
    transitivity (M q (pscale 512 (pscale 128 g))).
    + apply M_pscale; [exact q_pos|auto|]. exact H1.
    + apply f_equal. unfold pscale. rewrite map_map. apply map_ext. intros. lia.
  - rewrite map_length. auto.
  - apply (within_map _ 3328); auto. intros. apply f1441. auto.
Qed.
Definition k_gs_int (zeta x y : Z) : Z * Z := (barrett_reduce (x + y), fqmul zeta (y - x)).
Theorem kyber_invntt_nowrap : forall f, polyw 16383 f ->
  kyber_invntt f = map (fun x => fqmul x 1441) (loop_up k_gs_int kzeta pred 256 256 256 2 127 f).
Proof.
  intros f [L W]. rewrite kyber_invntt_M by auto. assert (H2 : (0 < 2)%nat) by lia. assert (H7 : (7 < 256)%nat) by lia.
  apply f_equal. transitivity (inttM k_gs_int kzeta 2 7 1 f).
  - apply (inttM_agree k_gs k_gs_int kzeta 2 bndi 7) with (d := 7%nat); auto.
    intros l k x y Hl Hx Hy. destruct (kgs_bf l k x y Hx Hy) as [E [P [P' [PP [R1 R2]]]]]. rewrite E. cbn [fst snd bndi]. split; [reflexivity|lia].
  - symmetry. exact (loop_up_top k_gs_int kzeta 2 H2 7 256 f L H7).
Qed.

(** ** pointwise *)
Lemma polyw_weaken : forall B B' f, B <= B' -> polyw B f -> polyw B' f.
Proof. intros B B' f H [L W]. split; auto. apply (within_weaken B); auto. Qed.
Lemma poly_reduce_ok : forall f B, B <= 32767 -> polyw B f -> M q (poly_reduce f) = M q f /\ polyw 1664 (poly_reduce f).
Proof.
  intros f B HB [L W]. unfold poly_reduce. split; [|split].
  - rewrite <- (map_id f) at 2. apply (M_map _ _ B); auto. intros. apply barrett_mod. lia.
  - rewrite map_length. auto.
  - apply (within_map _ B); auto. intros. apply barrett_range. lia.
Qed.
Theorem poly_ntt_ok : forall f, polyw 3328 f -> M q (poly_ntt f) = NTT f /\ polyw 1664 (poly_ntt f).
Proof.
  intros f W. destruct (kyber_ntt_ok f W) as [E W']. unfold poly_ntt.
  destruct (poly_reduce_ok (kyber_ntt f) 26624 ltac:(lia) W') as [E2 W2]. rewrite E2. auto.
Qed.

Lemma zip2_padd : forall a b B C, within B a -> within C b -> B + C <= 32767 ->
  poly_add a b = padd a b /\ within (B + C) (poly_add a b).
Proof.
  unfold poly_add. induction a as [|x a IH]; intros [|y b] B C H1 H2 H3; cbn [zip2 padd]; try (split; [reflexivity|constructor]).
  destruct (IH b B C (Forall_inv_tail H1) (Forall_inv_tail H2) H3) as [E F]. rewrite E in *.
  pose proof (Forall_inv H1). pose proof (Forall_inv H2). cbv beta in *. rewrite s16_id by lia. split; auto. constructor; auto. lia.
Qed.
Lemma zip2_psub : forall a b B C, within B a -> within C b -> B + C <= 32767 ->
  poly_sub a b = psub a b /\ within (B + C) (poly_sub a b).
Proof.
  unfold poly_sub. induction a as [|x a IH]; intros [|y b] B C H1 H2 H3; cbn [zip2 psub]; try (split; [reflexivity|constructor]).
  destruct (IH b B C (Forall_inv_tail H1) (Forall_inv_tail H2) H3) as [E F]. rewrite E in *.
  pose proof (Forall_inv H1). pose proof (Forall_inv H2). cbv beta in *. rewrite s16_id by lia. split; auto. constructor; auto. lia.
Qed.
Lemma poly_add_ok : forall a b B C, polyw B a -> polyw C b -> B + C <= 32767 ->
  M q (poly_add a b) = M q (padd a b) /\ polyw (B + C) (poly_add a b).
Proof.
  intros a b B C [L1 W1] [L2 W2] H. destruct (zip2_padd a b B C W1 W2 H) as [E F]. split. rewrite E. auto.
  split; auto. rewrite E, length_padd. lia.
Qed.
Lemma poly_sub_ok : forall a b B C, polyw B a -> polyw C b -> B + C <= 32767 ->
  M q (poly_sub a b) = M q (psub a b) /\ polyw (B + C) (poly_sub a b).
Proof.
  intros a b B C [L1 W1] [L2 W2] H. destruct (zip2_psub a b B C W1 W2 H) as [E F]. split. rewrite E. auto.
  split; auto. rewrite E, length_psub. lia.
Qed.

(** ** base multiplication *)
Definition bm (k : nat) (a b : list Z) (j : nat) : list Z :=
  basemul (nth (4 * j) a 0) (nth (4 * j + 1) a 0) (nth (4 * j) b 0) (nth (4 * j + 1) b 0) (kzeta k) ++
  basemul (nth (4 * j + 2) a 0) (nth (4 * j + 3) a 0) (nth (4 * j + 2) b 0) (nth (4 * j + 3) b 0) (s16 (- kzeta k)).
Lemma length_bm : forall k a b j, length (bm k a b j) = 4%nat.
Proof. intros. reflexivity. Qed.
Lemma basemul_nth : forall n k a b, length a = (4 * n)%nat -> length b = (4 * n)%nat ->
  length (basemul_loop k a b) = (4 * n)%nat /\
  forall j c, (j < n)%nat -> (c < 4)%nat -> nth (4 * j + c) (basemul_loop k a b) 0 = nth c (bm (k + j) a b j) 0.
Proof.
  induction n; intros k a b La Lb.
  - destruct a; [|cbn in La; lia]. split. reflexivity. lia.
  - destruct a as [|a0 [|a1 [|a2 [|a3 a]]]]; cbn [length] in La; try lia.
    destruct b as [|b0 [|b1 [|b2 [|b3 b]]]]; cbn [length] in Lb; try lia.
    destruct (IHn (S k) a b ltac:(lia) ltac:(lia)) as [H1 H2].
    cbn [basemul_loop]. split.
    + rewrite !app_length, H1. cbn [basemul length]. lia.
    + intros [|j] c Hj Hc.
      * rewrite Nat.add_0_r. rewrite app_assoc. rewrite app_nth1 by (cbn; lia). reflexivity.
      * rewrite app_assoc. rewrite app_nth2 by (cbn [basemul app length]; lia). cbn [basemul app length].
        replace (4 * S j + c - 4)%nat with (4 * j + c)%nat by lia. rewrite H2 by lia.
        replace (S k + j)%nat with (k + S j)%nat by lia.
        unfold bm. replace (4 * S j)%nat with (S (S (S (S (4 * j))))) by lia. reflexivity.
Qed.

Lemma gam_chk : forallb (fun j => ((169 * kzeta (64 + j)) mod q =? gam (2 * j)) && ((169 * - kzeta (64 + j)) mod q =? gam (2 * j + 1))) (seq 0 64) = true.
Proof. vm_compute. reflexivity. Qed.
Lemma gam_even : forall j, (j < 64)%nat -> (169 * kzeta (64 + j)) mod q = gam (2 * j).
Proof. intros j H. pose proof (nat_range _ _ gam_chk j H) as E. apply andb_prop in E. destruct E. apply Z.eqb_eq. auto. Qed.
Lemma gam_odd : forall j, (j < 64)%nat -> (169 * - kzeta (64 + j)) mod q = gam (2 * j + 1).
Proof. intros j H. pose proof (nat_range _ _ gam_chk j H) as E. apply andb_prop in E. destruct E. apply Z.eqb_eq. auto. Qed.

Lemma basemul_ok : forall a0 a1 b0 b1 z g A B, 0 <= A -> 0 <= B -> A * B <= 109084671 ->
  - A <= a0 <= A -> - A <= a1 <= A -> - B <= b0 <= B -> - B <= b1 <= B -> -1664 <= z <= 1664 -> (169 * z) mod q = g ->
  let r := basemul a0 a1 b0 b1 z in
  nth 0 r 0 mod q = (169 * (a0 * b0 + a1 * b1 * g)) mod q /\ nth 1 r 0 mod q = (169 * (a0 * b1 + a1 * b0)) mod q /\
  -6656 <= nth 0 r 0 <= 6656 /\ -6656 <= nth 1 r 0 <= 6656.
Proof.
  intros a0 a1 b0 b1 z g A B HA HB HAB Ha0 Ha1 Hb0 Hb1 Hz Hg r.
  assert (P : forall x y, - A <= x <= A -> - B <= y <= B -> -109084672 <= x * y <= 109084671).
  { intros x y Hx Hy. pose proof (prod_bound x y A B Hx Hy). lia. }
  pose proof (P a1 b1 Ha1 Hb1) as P11. pose proof (P a0 b0 Ha0 Hb0) as P00.
  pose proof (P a0 b1 Ha0 Hb1) as P01. pose proof (P a1 b0 Ha1 Hb0) as P10. clear P.
  pose proof (fqmul_range _ _ P11) as R11. pose proof (fqmul_range _ _ P00) as R00.
  pose proof (fqmul_range _ _ P01) as R01. pose proof (fqmul_range _ _ P10) as R10.
  assert (PZ : -109084672 <= fqmul a1 b1 * z <= 109084671) by (pose proof (prod_bound _ _ 3328 1664 R11 Hz); lia).
  pose proof (fqmul_range _ _ PZ) as RZ.
  unfold r, basemul. cbn [nth]. rewrite !s16_id by lia.
  split; [|split; [|lia]].
  - rewrite Z.add_mod, (fqmul_mod _ _ PZ), (fqmul_mod _ _ P00) by (unfold q; lia).
    rewrite <- Z.add_mod by (unfold q; lia). rewrite Z.mul_add_distr_l.
    rewrite Z.add_comm. rewrite Z.add_mod, (Z.add_mod (169 * (a0 * b0)) (169 * (a1 * b1 * g))) by (unfold q; lia). do 2 f_equal.
    replace (169 * (fqmul a1 b1 * z)) with (fqmul a1 b1 * (169 * z)) by lia.
    rewrite Z.mul_mod, (fqmul_mod _ _ P11), Hg by (unfold q; lia).
    rewrite <- (Z.mod_mod (169 * z) q) in Hg by (unfold q; lia). rewrite <- Hg at 1.
    rewrite <- Z.mul_mod by (unfold q; lia). rewrite Z.mul_mod_idemp_r, <- Hg by (unfold q; lia). 
    rewrite Z.mod_mod by (unfold q; lia).
    rewrite (Z.mul_mod 169 (a1 * b1 * _)), (Z.mul_mod (a1 * b1)), Z.mod_mod, <- (Z.mul_mod (a1 * b1)), <- Z.mul_mod by (unfold q; lia).
    f_equal. lia.
  - rewrite Z.add_mod, (fqmul_mod _ _ P01), (fqmul_mod _ _ P10), <- Z.add_mod by (unfold q; lia). f_equal. lia.
Qed.

Theorem poly_basemul_ok : forall a b A B, 0 <= A -> 0 <= B -> A * B <= 109084671 -> polyw A a -> polyw B b ->
  M q (poly_basemul_montgomery a b) = M q (pscale 169 (MultiplyNTTs a b)) /\ polyw 6656 (poly_basemul_montgomery a b).
Proof.
  intros a b A B HA HB HAB [La Wa] [Lb Wb].
  destruct (basemul_nth 64 64 a b La Lb) as [L N]. fold (poly_basemul_montgomery a b) in *.
  assert (PT : forall n, (n < 256)%nat -> nth n (poly_basemul_montgomery a b) 0 mod q = (169 * nth n (MultiplyNTTs a b) 0) mod q
    /\ -6656 <= nth n (poly_basemul_montgomery a b) 0 <= 6656).
  { intros n Hn. assert (E := Nat.div_mod n 4 ltac:(lia)). assert (F := Nat.mod_upper_bound n 4 ltac:(lia)).
    assert (G : (n / 4 < 64)%nat) by (apply Nat.div_lt_upper_bound; lia).
    set (j := (n / 4)%nat) in *. set (c := (n mod 4)%nat) in *. clearbody j c. subst n.
    rewrite N, nth_Mul by auto. cbv beta zeta.
    pose proof (fun i => within_nth A a i HA Wa) as Ha. pose proof (fun i => within_nth B b i HB Wb) as Hb.
    destruct (basemul_ok (nth (4 * j) a 0) (nth (4 * j + 1) a 0) (nth (4 * j) b 0) (nth (4 * j + 1) b 0) (kzeta (64 + j)) (gam (2 * j)) A B)
      as [X0 [X1 [X2 X3]]]; auto. apply kzeta_range. apply gam_even; auto.
    assert (SZ : s16 (- kzeta (64 + j)) = - kzeta (64 + j)) by (pose proof (kzeta_range (64 + j)); apply s16_id; lia).
    destruct (basemul_ok (nth (4 * j + 2) a 0) (nth (4 * j + 3) a 0) (nth (4 * j + 2) b 0) (nth (4 * j + 3) b 0) (s16 (- kzeta (64 + j))) (gam (2 * j + 1)) A B)
      as [Y0 [Y1 [Y2 Y3]]]; auto.
    { pose proof (kzeta_range (64 + j)). lia. } { rewrite SZ. apply gam_odd; auto. }
    assert (D0 : forall x, (x < 2)%nat -> ((4 * j + x) / 2 = 2 * j)%nat).
    { intros. replace (4 * j + x)%nat with (2 * j * 2 + x)%nat by lia. rewrite Nat.div_add_l, Nat.div_small; lia. }
    assert (D2 : forall x, (x < 2)%nat -> ((4 * j + (2 + x)) / 2 = 2 * j + 1)%nat).
    { intros. replace (4 * j + (2 + x))%nat with ((2 * j + 1) * 2 + x)%nat by lia. rewrite Nat.div_add_l, Nat.div_small; lia. }
    assert (E0 : forall x, (x < 2)%nat -> ((4 * j + x) mod 2 = x)%nat).
    { intros. replace (4 * j + x)%nat with (x + 2 * j * 2)%nat by lia. rewrite Nat.mod_add, Nat.mod_small; lia. }
    assert (E2 : forall x, (x < 2)%nat -> ((4 * j + (2 + x)) mod 2 = x)%nat).
    { intros. replace (4 * j + (2 + x))%nat with (x + (2 * j + 1) * 2)%nat by lia. rewrite Nat.mod_add, Nat.mod_small; lia. }
    rewrite Z.mul_comm.
    assert (Q : forall x, (x mod q * 169) mod q = (169 * x) mod q).
    { intros. rewrite Z.mul_mod_idemp_l by (unfold q; lia). f_equal. lia. }
    destruct c as [|[|[|[|c]]]]; [| | | |lia].
    - rewrite (D0 0%nat), (E0 0%nat) by lia. cbn [Nat.eqb]. rewrite Q. replace (2 * (2 * j))%nat with (4 * j)%nat by lia. split; auto.
    - rewrite (D0 1%nat), (E0 1%nat) by lia. cbn [Nat.eqb]. rewrite Q. replace (2 * (2 * j))%nat with (4 * j)%nat by lia. split; auto.
    - rewrite (D2 0%nat ltac:(lia) : ((4 * j + 2) / 2 = _)%nat), (E2 0%nat ltac:(lia) : ((4 * j + 2) mod 2 = _)%nat). cbn [Nat.eqb]. rewrite Q.
      replace (2 * (2 * j + 1))%nat with (4 * j + 2)%nat by lia. replace (4 * j + 2 + 1)%nat with (4 * j + 3)%nat by lia. split; auto.
    - rewrite (D2 1%nat ltac:(lia) : ((4 * j + 3) / 2 = _)%nat), (E2 1%nat ltac:(lia) : ((4 * j + 3) mod 2 = _)%nat). cbn [Nat.eqb]. rewrite Q.
      replace (2 * (2 * j + 1))%nat with (4 * j + 2)%nat by lia. replace (4 * j + 2 + 1)%nat with (4 * j + 3)%nat by lia. split; auto. }
  split; [|split; [exact L|]].
  - apply M_ext. rewrite length_pscale, length_Mul. exact L. intros i Hi. rewrite L in Hi. rewrite nth_pscale. apply PT. exact Hi.
  - apply within_of_nth. intros i Hi. rewrite L in Hi. apply PT. exact Hi.
Qed.
