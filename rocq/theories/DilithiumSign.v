(** Signing and verification of ml-dsa/src: the hints a round of signing makes let verification recompute the high bits. *)
From Verif Require Import Bytes Words ZUtil Fips202 KeccakModel Sha3Model KeccakBytes Sha3Top DrbgProof KmacModel UtilModel UtilProof PolyRing NttSim KyberModel KyberSpec KyberNttModel KyberCodec2 KyberSample KyberVec
  DilithiumModel DilithiumSpec DilithiumArith DilithiumNtt DilithiumNttModel DilithiumCodec DilithiumHint DilithiumSample DilithiumRing DilithiumScheme.
Require Import Lia.
Import ListNotations.

(** ** one round of signing *)
Lemma abs_trick : forall c, -1073741824 <= c <= 1073741824 -> s32 (c - Z.land (Z.shiftr c 31) (s32 (2 * c))) = Z.abs c.
Proof.
  intros c H. destruct (Z.lt_ge_cases c 0).
  - replace (Z.shiftr c 31) with (-1). 2:{ rewrite Z.shiftr_div_pow2 by lia. change (2 ^ 31) with 2147483648. apply (Z.div_unique c 2147483648 (-1) (c + 2147483648)); lia. }
    rewrite Z.land_m1_l. rewrite (s32_id (2 * c)) by lia. rewrite s32_id by lia. lia.
  - rewrite Z.shiftr_div_pow2 by lia. change (2 ^ 31) with 2147483648. rewrite Z.div_small by lia. rewrite Z.land_0_l, Z.sub_0_r, s32_id by lia. lia.
Qed.
Lemma chknorm_iff : forall B a, B <= (DQ - 1) / 8 -> Forall (fun c => -1073741824 <= c <= 1073741824) a -> (d_chknorm B a = false <-> Forall (fun c => Z.abs c < B) a).
Proof.
  intros B a HB H. unfold d_chknorm. replace ((DQ - 1) / 8 <? B) with false by (symmetry; apply Z.ltb_ge; lia). cbn [orb].
  induction H as [|c a Hc Ha IH]; cbn [existsb]. split; constructor. rewrite abs_trick by auto. rewrite Bool.orb_false_iff, IH, Z.leb_gt. split.
  - intros [X Y]. constructor; auto. - intro X. split. exact (Forall_inv X). exact (Forall_inv_tail X).
Qed.
Lemma coef_ok : forall g2 m w c h, is_g2 g2 m -> 0 <= w < dq -> Z.abs c <= 4211178 ->
  let r0 := d_reduce32 (s32 (snd (d_decompose g2 w) - c)) in Z.abs r0 < g2 -> Z.abs h < g2 ->
  let hint := d_make_hint g2 (s32 (r0 + h)) (fst (d_decompose g2 w)) in
  (hint = 0 \/ hint = 1) /\ 0 <= fst (d_decompose g2 w) < m /\
  d_use_hint g2 (((w - c mod dq) mod dq + h mod dq) mod dq) hint = fst (d_decompose g2 w).
Proof.
  intros g2 m w c h G Hw Hc. unfold dq in Hw. rewrite (ddecompose_of g2 m w G Hw). intros r0 Hr Hh hint. destruct (dec_of_pair g2 m w G Hw) as [[R1 R0] E].
  set (w1 := fst (dec_of g2 m w)) in *. set (w0 := snd (dec_of g2 m w)) in *. clearbody w1 w0.
  assert (Bg : 0 < g2 <= 261888) by (destruct G as [[-> ->]|[-> ->]]; lia).
  assert (B0 : Z.abs w0 <= g2) by lia. assert (Er : r0 mod dq = (w0 - c) mod dq). { unfold r0. rewrite (s32_id (w0 - c)) by lia. apply dreduce_mod. lia. }
  clearbody r0. assert (Ea : s32 (r0 + h) = r0 + h) by (apply s32_id; lia).
  assert (EV : ((w - c mod dq) mod dq + h mod dq) mod dq = (w1 * (2 * g2) + (r0 + h)) mod dq).
  { rewrite Zplus_mod_idemp_l, Zplus_mod_idemp_r. replace (w - c mod dq + h) with (w + h - c mod dq) by lia. rewrite Zminus_mod_idemp_r. rewrite E.
    set (X := w1 * (2 * g2)) in *. clearbody X. replace ((X + w0) mod dq + h - c) with ((X + w0) mod dq + (h - c)) by lia. rewrite Zplus_mod_idemp_l.
    replace (X + (r0 + h)) with (r0 + (X + h)) by lia. rewrite <- (Zplus_mod_idemp_l r0), Er, Zplus_mod_idemp_l. f_equal. lia. }
  split; [|split]; auto.
  - unfold hint, d_make_hint. destruct (_ || _); auto.
  - rewrite EV. unfold hint. rewrite Ea. destruct (duse_make g2 m w1 (r0 + h) G R1 ltac:(lia) ltac:(lia)) as [_ U].
    rewrite (duse_hint_ok g2 m) ; auto. apply Z.mod_pos_bound; reflexivity. unfold d_make_hint. destruct (_ || _); auto.
Qed.
Definition p_hint (g2 : Z) (W C H : list Z) : list Z :=
  zip2 (d_make_hint g2) (d_add (d_reduce (d_sub (map (fun a => snd (d_decompose g2 a)) W) C)) H) (map (fun a => fst (d_decompose g2 a)) W).
Lemma poly_hint_ok : forall g2 m, is_g2 g2 m -> forall W C H, length C = length W -> length H = length W -> Forall (fun x => 0 <= x < dq) W -> within 4211178 C ->
  Forall (fun x => Z.abs x < g2) (d_reduce (d_sub (map (fun a => snd (d_decompose g2 a)) W) C)) -> Forall (fun x => Z.abs x < g2) H ->
  zip2 (d_use_hint g2) (dRadd (dRsub W (M dq C)) (M dq H)) (p_hint g2 W C H) = map (fun a => fst (d_decompose g2 a)) W /\
  Forall (fun c => c = 0 \/ c = 1) (p_hint g2 W C H) /\ length (p_hint g2 W C H) = length W /\ Forall (fun x => 0 <= x < m) (map (fun a => fst (d_decompose g2 a)) W).
Proof.
  intros g2 m G. induction W as [|w W IH]; intros [|c C] [|h H] L1 L2 RW RC RR RH; try discriminate; unfold p_hint, d_add, d_sub, d_reduce; cbn [map zip2 length]. { repeat constructor. }
  cbn [length] in L1, L2. unfold d_sub, d_reduce in RR. cbn [map zip2] in RR.
  pose proof (Forall_inv RW) as Hw. pose proof (Forall_inv RC) as Hc. pose proof (Forall_inv RR) as Hr. pose proof (Forall_inv RH) as Hh. cbv beta in *.
  apply Forall_inv_tail in RW. apply Forall_inv_tail in RC. apply Forall_inv_tail in RR. apply Forall_inv_tail in RH.
  destruct (IH C H ltac:(lia) ltac:(lia) RW RC RR RH) as (E1 & E2 & E3 & E4). destruct (coef_ok g2 m w c h G Hw ltac:(lia) Hr Hh) as (K1 & K2 & K3).
  unfold p_hint, d_add, d_sub, d_reduce in E1, E2, E3. unfold dRadd, dRsub in *. cbn [M map psub padd zip2 length]. 
  split; [|split; [|split]].
  - f_equal. exact K3. exact E1.
  - constructor; auto.
  - f_equal. exact E3.
  - constructor; auto.
Qed.
Definition lists_hint (g2 : Z) (W C H : list (list Z)) : list (list Z) := v_make_hint g2 (v_add (v_reduce (v_sub (v_low g2 W) C)) H) (v_high g2 W).
Lemma vec_hint_ok : forall g2 m, is_g2 g2 m -> forall W C H, length C = length W -> length H = length W ->
  Forall (fun p => length p = 256%nat /\ Forall (fun x => 0 <= x < dq) p) W -> Forall (polyw 4211178) C -> Forall (fun p => length p = 256%nat) H ->
  Forall (Forall (fun x => Z.abs x < g2)) (v_reduce (v_sub (v_low g2 W) C)) -> Forall (Forall (fun x => Z.abs x < g2)) H ->
  v_use_hint g2 (dvec2 dRadd (dvec2 dRsub W (map (M dq) C)) (map (M dq) H)) (lists_hint g2 W C H) = v_high g2 W /\
  Forall binary (lists_hint g2 W C H) /\ length (lists_hint g2 W C H) = length W.
Proof.
  intros g2 m G. induction W as [|w W IH]; intros [|c C] [|h H] L1 L2 RW RC LH RR RH; try discriminate.
  { repeat constructor. }
  cbn [length] in L1, L2. unfold v_reduce, v_sub, v_low in RR. cbn [map zipv] in RR.
  pose proof (Forall_inv RW) as [Lw Hw]. pose proof (Forall_inv RC) as [Lc Hc]. pose proof (Forall_inv RR) as Hr. pose proof (Forall_inv RH) as Hh. pose proof (Forall_inv LH) as Lh. cbv beta in *.
  apply Forall_inv_tail in RW. apply Forall_inv_tail in RC. apply Forall_inv_tail in RR. apply Forall_inv_tail in RH. apply Forall_inv_tail in LH.
  destruct (IH C H ltac:(lia) ltac:(lia) RW RC LH RR RH) as (E1 & E2 & E3). clear IH.
  destruct (poly_hint_ok g2 m G w c h ltac:(lia) ltac:(lia) Hw Hc Hr Hh) as (K1 & K2 & K3 & _).
  unfold lists_hint, v_make_hint, v_add, v_reduce, v_sub, v_low, v_high, v_use_hint in *. cbn [map zipv dvec2 length].
  split; [|split].
  - apply f_equal2. exact K1. exact E1.
  - constructor; auto. split; auto. unfold p_hint in K3. rewrite K3. exact Lw.
  - apply f_equal. exact E3.
Qed.
(** the number of ones is the number of positions *)
Lemma ones_from_count : forall p i, Forall (fun c => c = 0 \/ c = 1) p -> Z.of_nat (length (ones_from i p)) = fold_right Z.add 0 p.
Proof.
  induction p as [|c p IH]; intros i H; cbn [ones_from fold_right]. reflexivity. pose proof (Forall_inv H) as Hc. cbv beta in Hc. rewrite <- (IH (S i) (Forall_inv_tail H)).
  rewrite app_length. destruct Hc as [-> | ->]; cbn [Z.eqb length]; lia.
Qed.
Lemma count_positions : forall h, Forall binary h -> Z.of_nat (length (positions h)) = v_count h.
Proof.
  intros h H. unfold v_count. induction H as [|p h [L B] Hh IH]. reflexivity. unfold positions in *. cbn [flat_map map fold_right]. rewrite app_length, Nat2Z.inj_add, IH.
  rewrite ones_at_from by auto. rewrite ones_from_count by auto. reflexivity.
Qed.
Definition red_poly (p : list Z) : Prop := length p = 256%nat /\ Forall (fun x => 0 <= x < dq) p.
Definition g2_m (P : dparam) : Z := (8380417 - 1) / (2 * d_g2 P).
Lemma dset_g2 : forall P, dset_in P -> is_g2 (d_g2 P) (g2_m P) /\ In (d_g2 P) [95232; 261888] /\ 0 <= d_beta P < 200 /\ d_g1 P - d_beta P <= (DQ - 1) / 8 /\ d_g2 P <= (DQ - 1) / 8.
Proof. intros P [<-|[<-|[<-|[]]]]; (split; [vm_compute; tauto|split; [vm_compute; tauto|vm_compute; repeat split; congruence]]). Qed.
Lemma high_range : forall g2 m W, is_g2 g2 m -> Forall (fun x => 0 <= x < dq) W -> Forall (fun x => 0 <= x < m) (map (fun a => fst (d_decompose g2 a)) W).
Proof.
  intros g2 m W G H. apply Forall_forall. intros x Hx. apply in_map_iff in Hx. destruct Hx as (w & <- & Hw). rewrite Forall_forall in H.
  pose proof (H w Hw) as R. unfold dq in R. rewrite (ddecompose_of g2 m) by auto. apply (dec_of_pair g2 m w G R).
Qed.
Lemma w1_facts : forall P W, dset_in P -> Forall red_poly W ->
  v_pack_w1 (d_g2 P) (v_high (d_g2 P) W) = flat_map (SimpleBitPack (w1_bits (d_g2 P))) (v_high (d_g2 P) W) /\
  bytes (v_pack_w1 (d_g2 P) (v_high (d_g2 P) W)) /\ length (v_pack_w1 (d_g2 P) (v_high (d_g2 P) W)) = (length W * (32 * w1_bits (d_g2 P)))%nat.
Proof.
  intros P W HP H. destruct (dset_g2 P HP) as (G & I & _). 
  assert (E : v_pack_w1 (d_g2 P) (v_high (d_g2 P) W) = flat_map (SimpleBitPack (w1_bits (d_g2 P))) (v_high (d_g2 P) W)).
  { unfold v_pack_w1. rewrite !flat_map_concat_map. apply f_equal. apply map_ext_in. intros p Hp. unfold v_high in Hp. apply in_map_iff in Hp. destruct Hp as (w & <- & Hw).
    rewrite Forall_forall in H. destruct (H w Hw) as [L R]. apply w1_pack_ok; auto. rewrite map_length; auto. eapply Forall_impl; [|apply (high_range _ (g2_m P)); eauto].
    cbv beta. unfold g2_m. intros; lia. }
  split; auto. rewrite E. split. apply bytes_flat, Forall_forall. intros; apply bytes_ByteEncode.
  rewrite (length_flat _ (32 * w1_bits (d_g2 P))). unfold v_high. rewrite map_length. reflexivity. apply Forall_forall. intros; apply length_ByteEncode.
Qed.
Lemma zipv_nth : forall (f : list Z -> list Z -> list Z) a b i, (i < length a)%nat -> (i < length b)%nat -> nth i (zipv f a b) [] = f (nth i a []) (nth i b []).
Proof. intros f. induction a; intros [|y b] [|i] H1 H2; cbn in *; try lia; auto. apply IHa; lia. Qed.
Lemma zipv_length : forall (f : list Z -> list Z -> list Z) a b, length (zipv f a b) = Nat.min (length a) (length b).
Proof. intros f. induction a; intros [|y b]; cbn; auto. Qed.
Lemma nth_map' : forall (f : list Z -> list Z) l i, (i < length l)%nat -> nth i (map f l) [] = f (nth i l []).
Proof. intros f. induction l; intros [|i] H; cbn in *; try lia; auto. apply IHl; lia. Qed.
Lemma v_chknorm_false : forall B v, B <= (DQ - 1) / 8 -> Forall (Forall (fun c => -1073741824 <= c <= 1073741824)) v -> (v_chknorm B v = false <-> Forall (Forall (fun c => Z.abs c < B)) v).
Proof.
  intros B v HB H. unfold v_chknorm. induction H as [|p v Hp Hv IH]; cbn [existsb]. split; constructor. rewrite Bool.orb_false_iff, IH, chknorm_iff by auto. split.
  - intros [X Y]; constructor; auto. - intro X; split; [exact (Forall_inv X)|exact (Forall_inv_tail X)].
Qed.
Lemma polyw_wide : forall v B, B <= 1073741824 -> Forall (polyw B) v -> Forall (Forall (fun c => -1073741824 <= c <= 1073741824)) v.
Proof. intros v B HB H. eapply Forall_impl; [|exact H]. cbv beta. intros p [_ W]. eapply Forall_impl; [|exact W]. cbv beta. intros; lia. Qed.
Lemma low_range : forall g2 m W, is_g2 g2 m -> red_poly W -> polyw 261888 (map (fun a => snd (d_decompose g2 a)) W).
Proof.
  intros g2 m W G [L H]. split. rewrite map_length; auto. apply Forall_forall. intros x Hx. apply in_map_iff in Hx. destruct Hx as (w & <- & Hw). rewrite Forall_forall in H.
  pose proof (H w Hw) as R. unfold dq in R. rewrite (ddecompose_of g2 m) by auto. destruct (dec_of_pair g2 m w G R) as [[A B] _]. destruct G as [[-> ->]|[-> ->]]; lia.
Qed.
Lemma red_NTTinv : forall f, red_poly (dNTTinv f).
Proof. intro f. split. apply dlength_NTTinv. apply Forall_forall. intros x Hx. rewrite <- dM_NTTinv in Hx. unfold M in Hx. apply in_map_iff in Hx. destruct Hx as (y & <- & _). apply Z.mod_pos_bound, dq_pos. Qed.

Lemma padd_swap : forall a b, padd a b = padd b a.
Proof. induction a as [|x a IH]; intros [|y b]; cbn [padd]; auto. rewrite IH. f_equal. lia. Qed.

Opaque shake256_of d_poly_challenge d_ntt d_invntt d_pointwise d_vec_gamma1 d_matvec dNTTinv dNTT dMul d_pack_sig d_reduce32 d_decompose d_chknorm.
Section Round.
  Variable P : dparam. Hypothesis HP : dset_in P.
  Variables (A : list (list (list Z))) (s1 s2 t0 t1 : list (list Z)).
  Hypothesis LA : length A = d_k P. Hypothesis RA : rows (d_l P) A.
  Hypothesis L1 : length s1 = d_l P. Hypothesis W1 : Forall (polyw (d_eta P)) s1.
  Hypothesis L2 : length s2 = d_k P. Hypothesis W2 : Forall (polyw (d_eta P)) s2.
  Hypothesis L0 : length t0 = d_k P. Hypothesis W0 : Forall (fun p => length p = 256%nat /\ inr (-4095) 4096 p) t0.
  Hypothesis Lt1 : length t1 = d_k P. Hypothesis Wt1 : Forall (fun p => length p = 256%nat /\ inr 0 1023 p) t1.
  Hypothesis Hkey : forall i, (i < d_k P)%nat ->
    dRadd (map (fun x => x * 2 ^ 13) (nth i t1 [])) (nth i t0 []) = dRadd (dNTTinv (ddot (nth i A []) (map dNTT s1))) (nth i s2 []).

  Definition v_times (c : list Z) (s : list (list Z)) : list (list Z) := v_invntt (v_pointwise_poly (d_ntt c) (v_ntt s)).
  Lemma times_ok : forall c s B, 0 <= B <= 8380416 -> polyw 1 c -> Forall (polyw B) s ->
    map (M dq) (v_times c s) = map (fun p => dNTTinv (dMul (dNTT c) (dNTT p))) s /\ Forall (polyw 4211178) (v_times c s) /\ length (v_times c s) = length s.
  Proof.
    intros c s B HB Pc Ps. unfold v_times, v_invntt, v_pointwise_poly, v_ntt. rewrite !map_map. split; [|split].
    - apply map_ext_in. intros p Hp. rewrite Forall_forall in Ps. apply (cs_ok c p B HB Pc (Ps p Hp)).
    - apply Forall_forall. intros p Hp. apply in_map_iff in Hp. destruct Hp as (x & <- & Hx). rewrite Forall_forall in Ps. apply (cs_ok c x B HB Pc (Ps x Hx)).
    - apply map_length.
  Qed.
  Lemma eta_small : 0 <= d_eta P <= 8380416. Proof. destruct (eta_in P HP) as [<-|[<-|[]]]; lia. Qed.
  Lemma g1_small : 0 <= d_g1 P <= 524288. Proof. destruct (dset_g1 P HP) as ([<-|[<-|[]]] & _); lia. Qed.
  (** the response z and its congruence *)
  Lemma z_ok : forall c y, polyw 1 c -> length y = d_l P -> Forall (polyw (d_g1 P)) y ->
    let z := v_reduce (v_add (v_times c s1) y) in
    length z = d_l P /\ Forall (polyw 6283009) z /\
    (forall j, (j < d_l P)%nat -> M dq (nth j z []) = dRadd (nth j y []) (dNTTinv (dMul (dNTT c) (dNTT (nth j s1 []))))).
  Proof.
    intros c y Pc Ly Py z. destruct (times_ok c s1 (d_eta P) eta_small Pc W1) as (E & F & L). pose proof g1_small as G1.
    assert (Lz : length z = d_l P) by (unfold z, v_reduce, v_add; rewrite map_length, zipv_length; lia).
    assert (K : forall j, (j < d_l P)%nat -> M dq (nth j z []) = dRadd (nth j y []) (dNTTinv (dMul (dNTT c) (dNTT (nth j s1 [])))) /\ polyw 6283009 (nth j z [])).
    { intros j Hj. unfold z, v_reduce, v_add. rewrite nth_map' by (rewrite zipv_length; lia). rewrite zipv_nth by lia.
      assert (Fj : polyw 4211178 (nth j (v_times c s1) [])) by (rewrite Forall_forall in F; apply F, nth_In; lia).
      assert (Yj : polyw (d_g1 P) (nth j y [])) by (rewrite Forall_forall in Py; apply Py, nth_In; lia).
      destruct (d_add_ok _ _ _ _ Fj Yj ltac:(lia)) as [Ea Wa]. rewrite Ea in *. destruct (d_reduce_ok _ (4211178 + d_g1 P) ltac:(lia) Wa) as [Er Wr]. split; auto. rewrite Er.
      assert (Ej : M dq (nth j (v_times c s1) []) = dNTTinv (dMul (dNTT c) (dNTT (nth j s1 [])))).
      { rewrite <- (nth_map' (M dq)) by lia. rewrite E. apply (nth_map' (fun p => dNTTinv (dMul (dNTT c) (dNTT p)))). lia. }
      rewrite <- Ej. unfold dRadd. rewrite padd_swap. apply M_padd; [apply dq_pos|reflexivity|]. rewrite M_M by apply dq_pos. reflexivity. }
    split; [auto|split]. apply Forall_forall. intros p Hp. destruct (In_nth _ p [] Hp) as (j & Hj & <-). apply K. lia. apply K.
  Qed.
  (** the value verification computes *)
  Lemma v_value : forall c y z, polyw 1 c -> length y = d_l P -> Forall (polyw (d_g1 P)) y -> length z = d_l P -> Forall (polyw 6283009) z ->
    (forall j, (j < d_l P)%nat -> M dq (nth j z []) = dRadd (nth j y []) (dNTTinv (dMul (dNTT c) (dNTT (nth j s1 []))))) ->
    v_caddq (v_invntt (v_reduce (v_sub (d_matvec A (v_ntt z)) (v_pointwise_poly (d_ntt c) (v_ntt (v_shiftl t1)))))) =
    dvec2 dRadd (dvec2 dRsub (map dNTTinv (dmatvec A (map dNTT y))) (map (M dq) (v_times c s2))) (map (M dq) (v_reduce (v_times c t0))).
  Proof.
    intros c y z Pc Ly Py Lz Pz HZ. pose proof (dset_small P HP) as (Hk & Hl & _).
    rewrite (v_ok (d_l P) Hl A z c t1 6283009 ltac:(lia) RA Pz Lz Pc Wt1 ltac:(congruence)).
    assert (P0 : Forall (polyw 4096) t0). { eapply Forall_impl; [|exact W0]. cbv beta. intros p [X Y]. split; auto. eapply Forall_impl; [|exact Y]. cbv beta. intros; lia. }
    destruct (times_ok c s2 (d_eta P) eta_small Pc W2) as (E2 & F2 & Ls2). destruct (times_ok c t0 4096 ltac:(lia) Pc P0) as (E0 & F0 & Ls0).
    assert (E0' : map (M dq) (v_reduce (v_times c t0)) = map (M dq) (v_times c t0)).
    { unfold v_reduce. rewrite map_map. apply map_ext_in. intros p Hp. rewrite Forall_forall in F0. apply (d_reduce_ok p 4211178 ltac:(lia) (F0 p Hp)). }
    rewrite E0', E2, E0. clear E0' E2 E0 F2 F0 Ls2 Ls0.
    assert (LW : length (map dNTTinv (dmatvec A (map dNTT y))) = d_k P) by (unfold dmatvec; rewrite !map_length; auto).
    apply (nth_ext _ _ [] []).
    { rewrite map_length, !length_dvec2, !map_length. unfold dmatvec. rewrite !map_length. lia. }
    intros i Hi. rewrite map_length, length_dvec2, map_length in Hi. unfold dmatvec in Hi. rewrite map_length in Hi.
    assert (Hik : (i < d_k P)%nat) by lia. clear Hi.
    rewrite nth_map' by (rewrite length_dvec2, map_length; unfold dmatvec; rewrite map_length; lia).
    rewrite nth_dvec2 by (unfold dmatvec; rewrite map_length; lia).
    rewrite (nth_dvec2 dRadd) by (rewrite ?length_dvec2, ?LW, ?map_length; lia).
    rewrite (nth_dvec2 dRsub) by (rewrite ?LW, ?map_length; lia).
    assert (DM : forall v, nth i (dmatvec A v) [] = ddot (nth i A []) v).
    { intro v. unfold dmatvec. rewrite (nth_indep _ [] (ddot [] v)) by (rewrite map_length; lia). apply (map_nth (fun row => ddot row v)). }
    rewrite (nth_map' dNTTinv) by (unfold dmatvec; rewrite map_length; lia). rewrite !DM.
    rewrite (nth_map' (fun t => dMul (dNTT c) (dNTT (map (fun x => x * 2 ^ 13) t)))) by lia.
    rewrite (nth_map' (fun p => dNTTinv (dMul (dNTT c) (dNTT p))) s2) by lia. rewrite (nth_map' (fun p => dNTTinv (dMul (dNTT c) (dNTT p))) t0) by lia.
    assert (Lr : length (nth i A []) = d_l P). { unfold rows in RA. rewrite Forall_forall in RA. apply RA, nth_In. lia. }
    apply (key_eq (nth i A []) y s1 z c (nth i s2 []) (nth i t0 []) (nth i t1 [])); try congruence.
    - apply Pc.
    - eapply Forall_impl; [|exact Py]. intros p [X _]. exact X.
    - eapply Forall_impl; [|exact W1]. intros p [X _]. exact X.
    - rewrite Forall_forall in W2. apply W2, nth_In. lia.
    - rewrite Forall_forall in W0. apply W0, nth_In. lia.
    - rewrite Forall_forall in Wt1. apply Wt1, nth_In. lia.
    - intros j Hj. apply HZ. lia.
    - apply Hkey, Hik.
  Qed.
  Theorem round_ok : forall fuel mu rp nonce sg, bytes mu -> length mu = 64%nat -> bytes rp -> length rp = 64%nat ->
    d_sign_round fuel P A (v_ntt s1) (v_ntt s2) (v_ntt t0) mu rp nonce = Some (Some sg) ->
    exists ctilde c z hh w1, bytes ctilde /\ length ctilde = d_ct P /\ d_poly_challenge fuel P ctilde = Some c /\
      ctilde = shake256_of [mu; v_pack_w1 (d_g2 P) w1] (d_ct P) /\ sg = d_pack_sig P ctilde z hh /\ z_range P z /\ v_chknorm (d_g1 P - d_beta P) z = false /\
      hint_vector (d_k P) (d_omega P) hh /\
      v_use_hint (d_g2 P) (v_caddq (v_invntt (v_reduce (v_sub (d_matvec A (v_ntt z)) (v_pointwise_poly (d_ntt c) (v_ntt (v_shiftl t1))))))) hh = w1.
  Proof.
    intros fuel mu rp nonce sg Bm Lm Br Lr E. unfold d_sign_round in E. cbv zeta in E.
    destruct (gamma1_range P rp nonce HP Br ltac:(lia)) as [Ly Py]. set (y := d_vec_gamma1 P rp nonce) in *. clearbody y.
    pose proof (dset_small P HP) as (Hk & Hl & He & Ht & Hct & _). destruct (dset_g2 P HP) as (G & Ig & Hb & Hg1 & Hg2). pose proof g1_small as G1s.
    rewrite (w_ok (d_l P) Hl A y (d_g1 P) ltac:(lia) RA Py Ly) in E.
    assert (RW : Forall red_poly (map dNTTinv (dmatvec A (map dNTT y)))) by (apply Forall_forall; intros p Hp; apply in_map_iff in Hp; destruct Hp as (x & <- & _); apply red_NTTinv).
    assert (LW : length (map dNTTinv (dmatvec A (map dNTT y))) = d_k P) by (unfold dmatvec; rewrite !map_length; auto).
    pose proof (v_value) as VV. specialize (fun c => VV c y).
    set (W := map dNTTinv (dmatvec A (map dNTT y))) in *. clearbody W.
    destruct (w1_facts P W HP RW) as (_ & Bw & Lw).
    assert (Lw' : (length (v_pack_w1 (d_g2 P) (v_high (d_g2 P) W)) <= 8 * 192)%nat). { rewrite Lw, LW. assert (w1_bits (d_g2 P) <= 6)%nat by (unfold w1_bits; destruct (_ =? _); lia). nia. }
    destruct (shake_facts [mu; v_pack_w1 (d_g2 P) (v_high (d_g2 P) W)] (d_ct P)) as [Bc Lc]. { repeat constructor; auto. } { cbn [concat]. rewrite !app_length. cbn [length]. lia. }
    set (ctilde := shake256_of [mu; v_pack_w1 (d_g2 P) (v_high (d_g2 P) W)] (d_ct P)) in *.
    destruct (d_poly_challenge fuel P ctilde) as [c|] eqn:Ec; [|discriminate].
    assert (Pc : polyw 1 c). { apply (challenge_sampled fuel P ctilde c HP Bc ltac:(lia) Ec). }
    specialize (fun z => VV c z Pc Ly Py). destruct (z_ok c y Pc Ly Py) as (Lz & Wz & HZ).
    change (v_invntt (v_pointwise_poly (d_ntt c) (v_ntt s1))) with (v_times c s1) in E. change (v_invntt (v_pointwise_poly (d_ntt c) (v_ntt s2))) with (v_times c s2) in E.
    change (v_invntt (v_pointwise_poly (d_ntt c) (v_ntt t0))) with (v_times c t0) in E.
    set (z := v_reduce (v_add (v_times c s1) y)) in *. clearbody z. specialize (VV z Lz Wz HZ). clear HZ.
    destruct (v_chknorm (d_g1 P - d_beta P) z) eqn:C1; [discriminate|].
    assert (P0 : Forall (polyw 4096) t0). { eapply Forall_impl; [|exact W0]. cbv beta. intros p [X Y]. split; auto. eapply Forall_impl; [|exact Y]. cbv beta. intros; lia. }
    destruct (times_ok c s2 (d_eta P) eta_small Pc W2) as (_ & F2 & Ls2). destruct (times_ok c t0 4096 ltac:(lia) Pc P0) as (_ & F0 & Ls0).
    rewrite L2 in Ls2. rewrite L0 in Ls0.
    set (C := v_times c s2) in *. clearbody C.
    assert (FH : Forall (polyw 6283009) (v_reduce (v_times c t0))).
    { unfold v_reduce. apply Forall_forall. intros p Hp. apply in_map_iff in Hp. destruct Hp as (x & <- & Hx). rewrite Forall_forall in F0. apply (d_reduce_ok x 4211178 ltac:(lia) (F0 x Hx)). }
    assert (LH : length (v_reduce (v_times c t0)) = d_k P) by (unfold v_reduce; rewrite map_length; auto).
    set (H := v_reduce (v_times c t0)) in *. clearbody H. clear F0 Ls0.
    destruct (v_chknorm (d_g2 P - d_beta P) (v_reduce (v_sub (v_low (d_g2 P) W) C))) eqn:C2; [discriminate|].
    destruct (v_chknorm (d_g2 P) H) eqn:C3; [discriminate|].
    change (v_make_hint (d_g2 P) (v_add (v_reduce (v_sub (v_low (d_g2 P) W) C)) H) (v_high (d_g2 P) W)) with (lists_hint (d_g2 P) W C H) in E.
    destruct (Z.of_nat (d_omega P) <? v_count (lists_hint (d_g2 P) W C H)) eqn:C4; [discriminate|]. apply Z.ltb_ge in C4.
    assert (Es : sg = d_pack_sig P ctilde z (lists_hint (d_g2 P) W C H)) by congruence. clear E.
    (* the low part *)
    assert (Llow : length (v_low (d_g2 P) W) = d_k P) by (unfold v_low; rewrite map_length; auto).
    assert (FR : Forall (polyw 6283009) (v_reduce (v_sub (v_low (d_g2 P) W) C))).
    { apply Forall_forall. intros p Hp. destruct (In_nth _ p [] Hp) as (j & Hj & <-). unfold v_reduce, v_sub in *. rewrite map_length, zipv_length in Hj.
      rewrite nth_map' by (rewrite zipv_length; lia). rewrite zipv_nth by lia. unfold v_low. rewrite nth_map' by lia.
      assert (Fj : polyw 4211178 (nth j C [])) by (rewrite Forall_forall in F2; apply F2, nth_In; lia).
      assert (Wj : polyw 261888 (map (fun a => snd (d_decompose (d_g2 P) a)) (nth j W []))) by (apply (low_range _ (g2_m P)); auto; rewrite Forall_forall in RW; apply RW, nth_In; lia).
      destruct (d_sub_ok _ _ _ _ Wj Fj ltac:(lia)) as [_ Ws]. apply (d_reduce_ok _ (261888 + 4211178) ltac:(lia) Ws). }
    pose proof (proj1 (v_chknorm_false (d_g1 P - d_beta P) z Hg1 (polyw_wide _ 6283009 ltac:(lia) Wz)) C1) as N1.
    pose proof (proj1 (v_chknorm_false (d_g2 P - d_beta P) _ ltac:(lia) (polyw_wide _ 6283009 ltac:(lia) FR)) C2) as N2.
    pose proof (proj1 (v_chknorm_false (d_g2 P) H Hg2 (polyw_wide _ 6283009 ltac:(lia) FH)) C3) as N3.
    assert (N2' : Forall (Forall (fun x => Z.abs x < d_g2 P)) (v_reduce (v_sub (v_low (d_g2 P) W) C))).
    { eapply Forall_impl; [|exact N2]. intros p Hp. eapply Forall_impl; [|exact Hp]. cbv beta. intros; lia. }
    assert (FH' : Forall (fun p => length p = 256%nat) H) by (eapply Forall_impl; [|exact FH]; intros p [X _]; exact X).
    destruct (vec_hint_ok (d_g2 P) (g2_m P) G W C H ltac:(lia) ltac:(lia) RW F2 FH' N2' N3) as (U & BH & Lh).
    exists ctilde, c, z, (lists_hint (d_g2 P) W C H), (v_high (d_g2 P) W).
    split; [exact Bc|]. split; [exact Lc|]. split; [exact Ec|]. split; [reflexivity|]. split; [exact Es|].
    split. { split; [exact Lz|]. apply Forall_forall. intros p Hp. rewrite Forall_forall in Wz, N1. destruct (Wz p Hp) as [X _]. split; [exact X|]. eapply Forall_impl; [|exact (N1 p Hp)]. cbv beta. intros; lia. }
    split; [exact C1|]. split.
    { split; [congruence|]. split. apply binary_iff. exact BH. rewrite <- count_positions in C4 by exact BH. lia. }
    rewrite VV. exact U.
  Qed.
End Round.
