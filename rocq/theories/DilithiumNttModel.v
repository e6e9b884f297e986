(** The C transform functions of ML-DSA compute the transform of the standard. *)
From Verif Require Import Bytes Words KeccakBytes PolyRing NttLoop NttSim KyberModel KyberArith KyberNttModel DilithiumModel DilithiumSpec DilithiumArith DilithiumNtt.
Require Import Lia.

(** ** forward *)
Definition dbnd (B : Z) (l : nat) : Z := B + 8380416 * Z.of_nat l.
Lemma dct_bf : forall B l k x y, 0 <= B <= 2080440319 -> (l < 8)%nat -> - dbnd B l <= x <= dbnd B l -> - dbnd B l <= y <= dbnd B l ->
  d_ct_bf (dzeta k) x y = (x + d_mont (dzeta k * y), x - d_mont (dzeta k * y)) /\
  (-17996808470921216 <= dzeta k * y < 17996808470921216) /\ -8380417 < d_mont (dzeta k * y) < 8380417 /\
  - dbnd B (S l) <= x + d_mont (dzeta k * y) <= dbnd B (S l) /\ - dbnd B (S l) <= x - d_mont (dzeta k * y) <= dbnd B (S l) /\
  dbnd B (S l) <= 2147483647.
Proof.
  intros B l k x y HB Hl Hx Hy. assert (HS : dbnd B (S l) = dbnd B l + 8380416) by (unfold dbnd; lia).
  assert (HC : dbnd B l + 8380416 <= 2147483647) by (unfold dbnd; lia).
  assert (P : -17996808470921216 <= dzeta k * y < 17996808470921216).
  { pose proof (prod_bound (dzeta k) y 4190208 2147483647 (dzeta_range k) ltac:(lia)). lia. }
  pose proof (dmont_range _ P). unfold d_ct_bf. cbv zeta. rewrite !s32_id by lia.
  split; [reflexivity|]. lia.
Qed.
Lemma dct_ok : forall B, 0 <= B <= 2080440319 -> forall l k x y, (l < 8)%nat -> (1 <= k < 256)%nat ->
  - dbnd B l <= x <= dbnd B l -> - dbnd B l <= y <= dbnd B l ->
  fst (d_ct_bf (dzeta k) x y) mod dq = (x + dz k * y) mod dq /\
  snd (d_ct_bf (dzeta k) x y) mod dq = (x + - dz k * y) mod dq /\
  - dbnd B (S l) <= fst (d_ct_bf (dzeta k) x y) <= dbnd B (S l) /\ - dbnd B (S l) <= snd (d_ct_bf (dzeta k) x y) <= dbnd B (S l).
Proof.
  intros B HB l k x y Hl Hk Hx Hy. destruct (dct_bf B l k x y HB Hl Hx Hy) as [E [P [R [B1 [B2 _]]]]]. rewrite E. cbn [fst snd].
  pose proof (dmont_inv _ P) as F. split; [|split; [|auto]].
  - rewrite Z.add_mod, F, <- Z.add_mod by (unfold dq; lia). f_equal. unfold dz. lia.
  - rewrite Zminus_mod, F, <- Zminus_mod. f_equal. unfold dz. lia.
Qed.
Lemma d_ntt_M : forall f, length f = 256%nat -> d_ntt f = nttM d_ct_bf dzeta 1 8 1 f.
Proof. intros f L. unfold d_ntt. assert (H2 : (0 < 1)%nat) by lia. assert (H7 : (8 < 256)%nat) by lia.
  exact (loop_down_top d_ct_bf dzeta 1 H2 8 256 f L H7). Qed.
Lemma dbnd_pos : forall B, 0 <= B -> forall l, 0 <= dbnd B l.
Proof. intros. unfold dbnd. lia. Qed.
Theorem d_ntt_ok : forall B f, 0 <= B <= 2080440319 -> polyw B f -> M dq (d_ntt f) = dNTT f /\ polyw (B + 67043328) (d_ntt f).
Proof.
  intros B f HB [L W]. rewrite d_ntt_M, <- dNTT_tree by auto.
  assert (A : (1 <= 1)%nat) by lia. assert (C : ((1 + 1) * 2 ^ 8 <= 2 * 256)%nat) by (cbn; lia). assert (D : (0 + 8 <= 8)%nat) by lia.
  assert (W0 : within (dbnd B 0) f) by (unfold dbnd; cbn; rewrite Z.add_0_r; auto).
  destruct (nttM_nttR dq dq_pos d_ct_bf dzeta dz 1 256 (dbnd B) 8 (dbnd_pos B ltac:(lia)) (dct_ok B HB) 8 0 1 f A C D L W0) as [H1 [H2 H3]].
  split. exact H1. split. exact H3. exact H2.
Qed.
(** the conversions to int32_t never change a value *)
Definition d_ct_int (zeta x y : Z) : Z * Z := (x + d_mont (zeta * y), x - d_mont (zeta * y)).
Theorem d_ntt_nowrap : forall f, polyw 2080440319 f -> d_ntt f = loop_down d_ct_int dzeta S 256 256 1 128 1 f.
Proof.
  intros f [L W]. rewrite d_ntt_M by auto. assert (H2 : (0 < 1)%nat) by lia. assert (H7 : (8 < 256)%nat) by lia.
  transitivity (nttM d_ct_int dzeta 1 8 1 f).
  - apply (nttM_agree d_ct_bf d_ct_int dzeta 1 (dbnd 2080440319) 8) with (l := 0%nat); auto.
    intros l k x y Hl Hx Hy. destruct (dct_bf 2080440319 l k x y ltac:(lia) Hl Hx Hy) as [E [P [R [B1 [B2 _]]]]]. rewrite E. auto.
  - symmetry. exact (loop_down_top d_ct_int dzeta 1 H2 8 256 f L H7).
Qed.

(** ** inverse *)
Definition dbni (l : nat) : Z := 8380417 * 2 ^ Z.of_nat l.
Lemma dbni_pos : forall l, 0 <= dbni l.
Proof. intros. unfold dbni. assert (0 < 2 ^ Z.of_nat l) by (apply Z.pow_pos_nonneg; lia). lia. Qed.
Lemma dbni_S : forall l, dbni (S l) = 2 * dbni l.
Proof. intros. unfold dbni. rewrite Nat2Z.inj_succ, Z.pow_succ_r by lia. lia. Qed.
Lemma dbni_lo : forall l, 8380417 <= dbni l.
Proof. intros. unfold dbni. assert (0 < 2 ^ Z.of_nat l) by (apply Z.pow_pos_nonneg; lia). lia. Qed.
Lemma dbni_hi : forall l, (l <= 8)%nat -> dbni l <= 2145386752.
Proof.
  intros. unfold dbni. assert (2 ^ Z.of_nat l <= 2 ^ 8) by (apply Z.pow_le_mono_r; lia). change (2 ^ 8) with 256 in H0. lia.
Qed.
Lemma dgs_bf : forall l k x y, (l < 8)%nat -> - dbni l <= x <= dbni l -> - dbni l <= y <= dbni l ->
  d_gs_bf (dzeta k) x y = (x + y, d_mont (- dzeta k * (x - y))) /\
  -2147483648 <= x + y <= 2147483647 /\ -2147483648 <= x - y <= 2147483647 /\
  (-17996808470921216 <= - dzeta k * (x - y) < 17996808470921216) /\
  - dbni (S l) <= x + y <= dbni (S l) /\ - dbni (S l) <= d_mont (- dzeta k * (x - y)) <= dbni (S l).
Proof.
  intros l k x y Hl Hx Hy. pose proof (dbni_hi (S l) ltac:(lia)) as H1. rewrite dbni_S in *. pose proof (dbni_lo l).
  pose proof (dzeta_range k) as ZR.
  assert (P : -17996808470921216 <= - dzeta k * (x - y) < 17996808470921216).
  { pose proof (prod_bound (- dzeta k) (x - y) 4190208 2147483647 ltac:(lia) ltac:(lia)). lia. }
  pose proof (dmont_range _ P). unfold d_gs_bf. rewrite (s32_id (- dzeta k)), (s32_id (x - y)), (s32_id (x + y)) by lia.
  split; [reflexivity|]. lia.
Qed.
Lemma dgs_ok : forall l k x y, (l < 8)%nat -> (1 <= k < 256)%nat -> - dbni l <= x <= dbni l -> - dbni l <= y <= dbni l ->
  fst (d_gs_bf (dzeta (mir k)) x y) mod dq = (x + y) mod dq /\
  snd (d_gs_bf (dzeta (mir k)) x y) mod dq = (dzi k * (x - y)) mod dq /\
  - dbni (S l) <= fst (d_gs_bf (dzeta (mir k)) x y) <= dbni (S l) /\ - dbni (S l) <= snd (d_gs_bf (dzeta (mir k)) x y) <= dbni (S l).
Proof.
  intros l k x y Hl Hk Hx Hy. destruct (dgs_bf l (mir k) x y Hl Hx Hy) as [E [_ [_ [PP [R1 R2]]]]]. rewrite E. cbn [fst snd].
  split. auto. split. rewrite dmont_inv by auto. f_equal. unfold dzi. lia. lia.
Qed.
Lemma d_invntt_M : forall f, length f = 256%nat -> d_invntt f = map (fun x => d_mont (41978 * x)) (inttM d_gs_bf dzeta 1 8 1 f).
Proof. intros f L. unfold d_invntt. assert (H2 : (0 < 1)%nat) by lia. assert (H7 : (8 < 256)%nat) by lia.
  apply f_equal. exact (loop_up_top d_gs_bf dzeta 1 H2 8 256 f L H7). Qed.
Lemma dM_map : forall (g h : Z -> Z) B f, (forall x, - B <= x <= B -> g x mod dq = h x mod dq) -> within B f -> M dq (map g f) = M dq (map h f).
Proof. intros g h B f H W. unfold M. rewrite !map_map. apply map_ext_in. intros x Hx. apply H. unfold within in W. rewrite Forall_forall in W. auto. Qed.
Lemma d41978 : forall x, -2145386752 <= x <= 2145386752 -> d_mont (41978 * x) mod dq = (41978 * 8265825 * x) mod dq /\ -8380416 <= d_mont (41978 * x) <= 8380416.
Proof.
  intros x H. assert (P : -17996808470921216 <= 41978 * x < 17996808470921216) by lia. split.
  - rewrite dmont_inv by auto. f_equal. lia.
  - pose proof (dmont_range _ P). lia.
Qed.
Lemma dbni_8 : dbni 8 = 2145386752.
Proof. reflexivity. Qed.
Lemma dint8_eq : forall f, dint8 f = inttR 1 dzi 8 1 f.
Proof. reflexivity. Qed.
Lemma dinttM_ok : forall f, polyw 8380417 f -> M dq (inttM d_gs_bf dzeta 1 8 1 f) = M dq (dint8 f) /\
  within 2145386752 (inttM d_gs_bf dzeta 1 8 1 f) /\ length (inttM d_gs_bf dzeta 1 8 1 f) = 256%nat.
Proof.
  intros f [L W].
  assert (A : (1 <= 1)%nat) by lia. assert (B : ((1 + 1) * 2 ^ 8 <= 2 * 256)%nat) by (cbn; lia). assert (C : (8 <= 8)%nat) by lia.
  assert (H2 : (0 < 1)%nat) by lia.
  assert (W0 : within (dbni 0) f) by exact W.
  destruct (inttM_inttR dq dq_pos d_gs_bf dzeta dzi 1 256 H2 dbni 8 dbni_pos dgs_ok 8 1 f A B C L W0) as [H1 H3].
  rewrite dbni_8 in H3.
  split. exact H1. split. exact H3. exact (length_inttM d_gs_bf dzeta 1 H2 8 1 f L).
Qed.
Lemma dfinal_ok : forall r g, within 2145386752 r -> M dq r = M dq (pscale 256 g) ->
  M dq (map (fun x => d_mont (41978 * x)) r) = M dq (pscale (2 ^ 32) g).
Proof.
  intros r g H3 H1. rewrite (dM_map _ (fun x => 41978 * 8265825 * x) 2145386752); auto.
  2:{ intros. apply d41978. auto. }
  set (K := 41978 * 8265825).
  transitivity (M dq (pscale K (pscale 256 g))).
  - apply (M_pscale dq dq_pos K K r (pscale 256 g)); [reflexivity|exact H1].
  - unfold pscale. rewrite map_map. unfold M. rewrite !map_map. apply map_ext. intros x.
    replace (K * (256 * x)) with (2 ^ 32 * x + x * 10598912 * dq) by (unfold dq, K; lia). apply Z_mod_plus_full.
Qed.
Theorem d_invntt_ok : forall g, polyw 8380417 g ->
  M dq (d_invntt g) = M dq (pscale (2 ^ 32) (dNTTinv g)) /\ polyw 8380416 (d_invntt g).
Proof.
  intros f PW. destruct (dinttM_ok f PW) as [H1 [H3 L']]. destruct PW as [L W]. rewrite d_invntt_M by auto.
  rewrite (dint8_inv f L) in H1.
  split; [|split].
  - apply dfinal_ok; auto.
  - rewrite map_length. auto.
  - apply (within_map _ 2145386752); auto. intros. apply d41978. auto.
Qed.
Definition d_gs_int (zeta x y : Z) : Z * Z := (x + y, d_mont (- zeta * (x - y))).
Theorem d_invntt_nowrap : forall f, polyw 8380417 f ->
  d_invntt f = map (fun x => d_mont (41978 * x)) (loop_up d_gs_int dzeta pred 256 256 256 1 255 f).
Proof.
  intros f [L W]. rewrite d_invntt_M by auto. assert (H2 : (0 < 1)%nat) by lia. assert (H7 : (8 < 256)%nat) by lia.
  apply f_equal. transitivity (inttM d_gs_int dzeta 1 8 1 f).
  - apply (inttM_agree d_gs_bf d_gs_int dzeta 1 dbni 8) with (d := 8%nat); auto.
    intros l k x y Hl Hx Hy. destruct (dgs_bf l k x y Hl Hx Hy) as [E [P [P' [PP [R1 R2]]]]]. rewrite E. cbn [fst snd]. split; [reflexivity|lia].
  - symmetry. exact (loop_up_top d_gs_int dzeta 1 H2 8 256 f L H7).
Qed.

(** ** coefficient-wise functions *)
Lemma d_reduce_ok : forall f B, B <= 2143289343 -> polyw B f -> M dq (d_reduce f) = M dq f /\ polyw 6283009 (d_reduce f).
Proof.
  intros f B HB [L W]. unfold d_reduce. split; [|split].
  - rewrite <- (map_id f) at 2. apply (dM_map _ _ B); auto. intros. apply dreduce_mod. lia.
  - rewrite map_length. auto.
  - apply (within_map _ B); auto. intros x Hx. pose proof (dreduce_range x ltac:(lia)). lia.
Qed.
Lemma d_caddqs_ok : forall f, polyw 8380416 f -> d_caddqs f = M dq f.
Proof.
  intros f [L W]. unfold d_caddqs, M. apply map_ext_in. intros x Hx. apply dcaddq_small. unfold within in W. rewrite Forall_forall in W.
  specialize (W x Hx). lia.
Qed.
Lemma d_add_padd : forall a b B C, within B a -> within C b -> B + C <= 2147483647 ->
  d_add a b = padd a b /\ within (B + C) (d_add a b).
Proof.
  unfold d_add. induction a as [|x a IH]; intros [|y b] B C H1 H2 H3; cbn [zip2 padd]; try (split; [reflexivity|constructor]).
  destruct (IH b B C (Forall_inv_tail H1) (Forall_inv_tail H2) H3) as [E F]. rewrite E in *.
  pose proof (Forall_inv H1). pose proof (Forall_inv H2). cbv beta in *. rewrite s32_id by lia. split; auto. constructor; auto. lia.
Qed.
Lemma d_sub_psub : forall a b B C, within B a -> within C b -> B + C <= 2147483647 ->
  d_sub a b = psub a b /\ within (B + C) (d_sub a b).
Proof.
  unfold d_sub. induction a as [|x a IH]; intros [|y b] B C H1 H2 H3; cbn [zip2 psub]; try (split; [reflexivity|constructor]).
  destruct (IH b B C (Forall_inv_tail H1) (Forall_inv_tail H2) H3) as [E F]. rewrite E in *.
  pose proof (Forall_inv H1). pose proof (Forall_inv H2). cbv beta in *. rewrite s32_id by lia. split; auto. constructor; auto. lia.
Qed.
Lemma d_add_ok : forall a b B C, polyw B a -> polyw C b -> B + C <= 2147483647 ->
  d_add a b = padd a b /\ polyw (B + C) (d_add a b).
Proof.
  intros a b B C [L1 W1] [L2 W2] H. destruct (d_add_padd a b B C W1 W2 H) as [E F]. split. rewrite E. auto.
  split; auto. rewrite E, length_padd. lia.
Qed.
Lemma d_sub_ok : forall a b B C, polyw B a -> polyw C b -> B + C <= 2147483647 ->
  d_sub a b = psub a b /\ polyw (B + C) (d_sub a b).
Proof.
  intros a b B C [L1 W1] [L2 W2] H. destruct (d_sub_psub a b B C W1 W2 H) as [E F]. split. rewrite E. auto.
  split; auto. rewrite E, length_psub. lia.
Qed.
Lemma length_zip2 : forall f a b, length (zip2 f a b) = Nat.min (length a) (length b).
Proof. induction a; intros [|y b]; cbn [zip2 length Nat.min]; auto. Qed.
Lemma nth_zip2 : forall f a b i, (i < length a)%nat -> (i < length b)%nat -> nth i (zip2 f a b) 0 = f (nth i a 0) (nth i b 0).
Proof. induction a; intros [|y b] [|i] H1 H2; cbn [zip2 length nth] in *; try lia; auto. apply IHa; lia. Qed.
Theorem d_pointwise_ok : forall a b A B, 0 <= A -> 0 <= B -> A * B < 17996808470921216 -> polyw A a -> polyw B b ->
  M dq (d_pointwise a b) = M dq (pscale 8265825 (dMul a b)) /\ polyw 8380416 (d_pointwise a b).
Proof.
  intros a b A B HA HB HAB [La Wa] [Lb Wb].
  assert (L : length (d_pointwise a b) = 256%nat) by (unfold d_pointwise; rewrite length_zip2; lia).
  assert (PT : forall i, (i < 256)%nat -> nth i (d_pointwise a b) 0 mod dq = (8265825 * nth i (dMul a b) 0) mod dq
    /\ -8380416 <= nth i (d_pointwise a b) 0 <= 8380416).
  { intros i Hi. unfold d_pointwise. rewrite nth_zip2, dnth_Mul by lia.
    pose proof (prod_bound _ _ A B (within_nth A a i HA Wa) (within_nth B b i HB Wb)).
    split. rewrite dmont_inv, Zmult_mod_idemp_r by lia. reflexivity.
    pose proof (dmont_range (nth i a 0 * nth i b 0) ltac:(lia)). lia. }
  split; [|split; [exact L|]].
  - apply M_ext. rewrite length_pscale, dlength_Mul. exact L. intros i Hi. rewrite L in Hi. rewrite nth_pscale. apply PT. exact Hi.
  - apply within_of_nth. intros i Hi. rewrite L in Hi. apply PT. exact Hi.
Qed.
