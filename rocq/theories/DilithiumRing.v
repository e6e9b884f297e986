(** The vectors of ml-dsa/src against the ring of FIPS 204: what keygen, sign and verify compute between sampling,
    rounding and encoding. *)
From Verif Require Import Bytes Words PolyRing NttLoop NttSim KyberModel KyberArith KyberNtt KyberNttModel DilithiumModel DilithiumSpec DilithiumArith DilithiumNtt DilithiumNttModel.
Require Import Lia.
Import ListNotations.

(** the last step of invntt_tomont leaves less than 0.503 Q *)
Lemma d41978_tight : forall x, -2145386752 <= x <= 2145386752 -> -4211178 <= d_mont (41978 * x) <= 4211178.
Proof.
  intros x H. assert (P : -17996808470921216 <= 41978 * x < 17996808470921216) by lia.
  destruct (dmont_ok _ P) as [m [E [_ ->]]]. pose proof (s32_range (s32 (41978 * x) * 58728449)) as R.
  set (t := s32 (s32 (41978 * x) * 58728449)) in *. clearbody t. unfold DQ in E. lia.
Qed.
Lemma d_invntt_tight : forall g, polyw 8380417 g -> polyw 4211178 (d_invntt g).
Proof.
  intros f PW. destruct (dinttM_ok f PW) as [_ [H3 L']]. destruct PW as [L W]. rewrite d_invntt_M by auto. split.
  rewrite map_length. exact L'. apply (within_map _ 2145386752); auto. intros. apply d41978_tight. auto.
Qed.
Lemma inv_cancel : forall g h, M dq g = M dq (pscale 8265825 h) -> M dq (pscale (2 ^ 32) (dNTTinv g)) = dNTTinv h.
Proof.
  intros g h E. rewrite (dNTTinv_M _ _ E), dNTTinv_pscale. unfold M, pscale. rewrite !map_map.
  rewrite <- (dM_NTTinv h) at 2. unfold M. apply map_ext. intros x.
  rewrite Zmult_mod_idemp_r. replace (2 ^ 32 * (8265825 * x)) with (x + x * 4236238847 * dq) by (unfold dq; lia).
  apply Z_mod_plus_full.
Qed.
(** reduce, invntt_tomont after a sum of Montgomery products *)
Lemma inv_reduce_ok : forall g h B, B <= 2143289343 -> polyw B g -> M dq g = M dq (pscale 8265825 h) ->
  M dq (d_invntt (d_reduce g)) = dNTTinv h /\ polyw 4211178 (d_invntt (d_reduce g)).
Proof.
  intros g h B HB W E. destruct (d_reduce_ok g B HB W) as [E1 W1].
  assert (W2 : polyw 8380417 (d_reduce g)) by (apply (polyw_weaken 6283009); [lia|exact W1]).
  destruct (d_invntt_ok _ W2) as [E2 _]. split; [|apply d_invntt_tight; exact W2].
  rewrite E2. apply inv_cancel. rewrite E1. exact E.
Qed.
Lemma length_dRadd : forall a b, length a = length b -> length (dRadd a b) = length a.
Proof. intros. unfold dRadd. rewrite length_M, length_padd, H. lia. Qed.
Lemma length_dRsub : forall a b, length a = length b -> length (dRsub a b) = length a.
Proof. intros. unfold dRsub. rewrite length_M, length_psub, H. lia. Qed.
Lemma length_ddot : forall a b, length (ddot a b) = 256%nat.
Proof.
  induction a as [|x a IH]; intros [|y b]; cbn [ddot]; try apply length_zeros. rewrite length_dRadd; rewrite dlength_Mul; auto.
Qed.
Lemma dM_ddot : forall a b, M dq (ddot a b) = ddot a b.
Proof.
  induction a as [|x a IH]; intros [|y b]; cbn [ddot]; try reflexivity. unfold dRadd. apply M_M, dq_pos.
Qed.

(** ** polyvecl_pointwise_acc_montgomery *)
Lemma pscale_padd : forall c a b, pscale c (padd a b) = padd (pscale c a) (pscale c b).
Proof. intros c. induction a as [|x a IH]; intros [|y b]; cbn; auto. rewrite Z.mul_add_distr_l. f_equal. apply IH. Qed.
Lemma pscale_psub : forall c a b, pscale c (psub a b) = psub (pscale c a) (pscale c b).
Proof. intros c. induction a as [|x a IH]; intros [|y b]; cbn; auto. rewrite Z.mul_sub_distr_l. f_equal. apply IH. Qed.
Lemma padd_assoc : forall a b c, padd (padd a b) c = padd a (padd b c).
Proof. induction a as [|x a IH]; intros [|y b] [|z c]; cbn; auto. rewrite Z.add_assoc. f_equal. apply IH. Qed.
Lemma padd_zeros : forall a, padd a (zeros (length a)) = a.
Proof. induction a; cbn; auto. rewrite Z.add_0_r. f_equal. apply IHa. Qed.
Lemma pscale_zeros : forall c n, pscale c (zeros n) = zeros n.
Proof. intros c n. unfold pscale, zeros. induction n; cbn; auto. rewrite Z.mul_0_r. f_equal. apply IHn. Qed.

Definition K32 : Z := 8265825.
Lemma acc_loop_ok : forall B, 0 <= B <= 2147483647 -> forall u v w W, W + 8380416 * Z.of_nat (length u) <= 2147483647 ->
  0 <= W -> polyw W w -> Forall (polyw 8380416) u -> Forall (polyw B) v -> length u = length v ->
  M dq (d_acc_loop w u v) = M dq (padd w (pscale K32 (ddot u v))) /\ polyw (W + 8380416 * Z.of_nat (length u)) (d_acc_loop w u v).
Proof.
  intros B HB. induction u as [|x u IH]; intros [|y v] w W HW W0 Pw Pu Pv L; try discriminate L.
  - cbn [d_acc_loop ddot length]. unfold dRzero. rewrite pscale_zeros. destruct Pw as [Lw Ww]. rewrite <- Lw, padd_zeros. split; auto.
    rewrite Z.mul_0_r, Z.add_0_r. split; auto.
  - cbn [d_acc_loop ddot length]. rewrite Nat2Z.inj_succ in *. cbn [length] in HW. pose proof (Forall_inv Pu) as Px. pose proof (Forall_inv Pv) as Py.
    apply Forall_inv_tail in Pu. apply Forall_inv_tail in Pv.
    assert (PB : 8380416 * B < 17996808470921216) by lia.
    destruct (d_pointwise_ok x y 8380416 B ltac:(lia) ltac:(lia) PB Px Py) as [E1 W1].
    destruct (d_add_ok w (d_pointwise x y) W 8380416 Pw W1 ltac:(lia)) as [E2 W2].
    destruct (IH v _ (W + 8380416) ltac:(lia) ltac:(lia) W2 Pu Pv ltac:(cbn in L; lia)) as [E3 W3]. split.
    2:{ replace (W + 8380416 * Z.succ (Z.of_nat (length u))) with (W + 8380416 + 8380416 * Z.of_nat (length u)) by lia. exact W3. }
    rewrite E3, E2. rewrite padd_assoc. apply M_padd; [apply dq_pos|reflexivity|].
    transitivity (M dq (padd (pscale K32 (dMul x y)) (pscale K32 (ddot u v)))). apply M_padd; [apply dq_pos|exact E1|reflexivity].
    rewrite <- pscale_padd. apply M_pscale; [apply dq_pos|reflexivity|]. unfold dRadd. rewrite M_M by apply dq_pos. reflexivity.
Qed.
Lemma acc_ok : forall B u v, 0 <= B <= 2147483647 -> (0 < length u <= 7)%nat -> Forall (polyw 8380416) u -> Forall (polyw B) v -> length u = length v ->
  M dq (d_acc u v) = M dq (pscale K32 (ddot u v)) /\ polyw 58662912 (d_acc u v).
Proof.
  intros B [|x u] [|y v] HB Hu Pu Pv L; cbn [length] in *; try lia. cbn [d_acc ddot].
  pose proof (Forall_inv Pu) as Px. pose proof (Forall_inv Pv) as Py. apply Forall_inv_tail in Pu. apply Forall_inv_tail in Pv.
  assert (PB : 8380416 * B < 17996808470921216) by lia.
  destruct (d_pointwise_ok x y 8380416 B ltac:(lia) ltac:(lia) PB Px Py) as [E1 W1].
  destruct (acc_loop_ok B HB u v _ 8380416 ltac:(lia) ltac:(lia) W1 Pu Pv ltac:(lia)) as [E3 W3]. split.
  - rewrite E3. transitivity (M dq (padd (pscale K32 (dMul x y)) (pscale K32 (ddot u v)))). apply M_padd; [apply dq_pos|exact E1|reflexivity].
    rewrite <- pscale_padd. apply M_pscale; [apply dq_pos|reflexivity|]. unfold dRadd. rewrite M_M by apply dq_pos. reflexivity.
  - apply (polyw_weaken (8380416 + 8380416 * Z.of_nat (length u))); [lia|exact W3].
Qed.
Lemma ddot_M : forall row v v', length v = length v' -> (forall i, M dq (nth i v []) = M dq (nth i v' [])) -> ddot row v = ddot row v'.
Proof.
  induction row as [|x row IH]; intros [|y v] [|y' v'] L E; try discriminate L; cbn [ddot]; auto.
  rewrite (dMul_M x x y y'); [|reflexivity|exact (E 0%nat)]. rewrite (IH v v'). reflexivity. cbn in L; lia. intro i. exact (E (S i)).
Qed.
Lemma ddot_ntt : forall row B v, 0 <= B <= 2080440319 -> Forall (polyw B) v -> ddot row (v_ntt v) = ddot row (map dNTT v).
Proof.
  intros row B v HB W. apply ddot_M. unfold v_ntt. rewrite !map_length. reflexivity. intro i.
  destruct (Nat.lt_ge_cases i (length v)).
  - unfold v_ntt. rewrite (nth_indep _ [] (d_ntt [])), (nth_indep (map dNTT v) [] (dNTT [])) by (rewrite map_length; auto).
    rewrite !map_nth. rewrite dM_NTT. apply (d_ntt_ok B); auto. rewrite Forall_forall in W. apply W, nth_In, H.
  - unfold v_ntt. rewrite !nth_overflow by (rewrite map_length; auto). reflexivity.
Qed.
Lemma v_ntt_w : forall B v, 0 <= B <= 2080440319 -> Forall (polyw B) v -> Forall (polyw (B + 67043328)) (v_ntt v).
Proof. intros B v HB W. unfold v_ntt. apply Forall_forall. intros x Hx. apply in_map_iff in Hx. destruct Hx as (y & <- & Hy). rewrite Forall_forall in W. apply d_ntt_ok; auto. Qed.

Definition rows (l : nat) (A : list (list (list Z))) : Prop := Forall (fun row => length row = l /\ Forall (polyw 8380416) row) A.
Section Mat.
  Variable l : nat. Hypothesis Hl : (0 < l <= 7)%nat.
  Lemma row_ok : forall row v B, 0 <= B <= 2080440319 -> length row = l -> Forall (polyw 8380416) row -> Forall (polyw B) v -> length v = l ->
    M dq (d_acc row (v_ntt v)) = M dq (pscale K32 (ddot row (map dNTT v))) /\ polyw 58662912 (d_acc row (v_ntt v)).
  Proof.
    intros row v B HB Lr Pr Pv Lv. rewrite <- (ddot_ntt row B v HB Pv). apply (acc_ok (B + 67043328)); auto; try lia.
    apply v_ntt_w; auto. unfold v_ntt. rewrite map_length. lia.
  Qed.
  (** A y, as in keygen (before s2 is added) and in sign *)
  Lemma Ay_ok : forall A v B, 0 <= B <= 2080440319 -> rows l A -> Forall (polyw B) v -> length v = l ->
    map (M dq) (v_invntt (v_reduce (d_matvec A (v_ntt v)))) = map dNTTinv (dmatvec A (map dNTT v)) /\
    Forall (polyw 4211178) (v_invntt (v_reduce (d_matvec A (v_ntt v)))).
  Proof.
    intros A v B HB HA Pv Lv. unfold v_invntt, v_reduce, d_matvec, dmatvec. rewrite !map_map. split.
    - apply map_ext_in. intros row Hr. unfold rows in HA. rewrite Forall_forall in HA. destruct (HA row Hr) as [Lr Pr].
      destruct (row_ok row v B HB Lr Pr Pv Lv) as [E W]. apply (inv_reduce_ok _ _ 58662912); auto; lia.
    - apply Forall_forall. intros x Hx. apply in_map_iff in Hx. destruct Hx as (row & <- & Hr). unfold rows in HA. rewrite Forall_forall in HA. destruct (HA row Hr) as [Lr Pr].
      destruct (row_ok row v B HB Lr Pr Pv Lv) as [E W]. apply (inv_reduce_ok _ (ddot row (map dNTT v)) 58662912); auto; lia.
  Qed.
  Lemma w_ok : forall A v B, 0 <= B <= 2080440319 -> rows l A -> Forall (polyw B) v -> length v = l ->
    v_caddq (v_invntt (v_reduce (d_matvec A (v_ntt v)))) = map dNTTinv (dmatvec A (map dNTT v)).
  Proof.
    intros A v B HB HA Pv Lv. destruct (Ay_ok A v B HB HA Pv Lv) as [E W]. rewrite <- E. unfold v_caddq. apply map_ext_in.
    intros x Hx. rewrite Forall_forall in W. apply d_caddqs_ok. apply (polyw_weaken 4211178); [lia|]. apply W, Hx.
  Qed.
  Lemma t_ok : forall A s1 s2 B, 0 <= B <= 4096 -> rows l A -> Forall (polyw B) s1 -> length s1 = l -> Forall (polyw B) s2 -> length s2 = length A ->
    v_caddq (v_add (v_invntt (v_reduce (d_matvec A (v_ntt s1)))) s2) = dvec2 dRadd (map dNTTinv (dmatvec A (map dNTT s1))) s2.
  Proof.
    intros A s1 s2 B HB HA P1 L1 P2 L2. destruct (Ay_ok A s1 B ltac:(lia) HA P1 L1) as [E W]. rewrite <- E.
    assert (LA : length (v_invntt (v_reduce (d_matvec A (v_ntt s1)))) = length s2). { unfold v_invntt, v_reduce, d_matvec. rewrite !map_length. auto. }
    set (X := v_invntt (v_reduce (d_matvec A (v_ntt s1)))) in *. clearbody X. clear E HA L2 P1. revert s2 P2 LA W. unfold v_caddq, v_add.
    induction X as [|x X IH]; intros [|y s2] P2 LA W; cbn [zipv map dvec2]; auto. f_equal.
    - destruct (d_add_ok x y 4211178 B (Forall_inv W) (Forall_inv P2) ltac:(lia)) as [E1 W1]. rewrite d_caddqs_ok by (apply (polyw_weaken (4211178 + B)); [lia|auto]).
      rewrite E1. unfold dRadd. apply M_padd; [apply dq_pos| |reflexivity]. rewrite M_M by apply dq_pos. reflexivity.
    - apply IH. apply (Forall_inv_tail P2). cbn in LA; lia. apply (Forall_inv_tail W).
  Qed.
  (** what verify computes before the hints are used *)
  Lemma shiftl_ok : forall t, length t = 256%nat -> Forall (fun x => 0 <= x <= 1023) t -> d_shiftl t = map (fun x => x * 2 ^ 13) t /\ polyw 8380416 (d_shiftl t).
  Proof.
    intros t L H. assert (E : d_shiftl t = map (fun x => x * 2 ^ 13) t).
    { unfold d_shiftl. apply map_ext_in. intros x Hx. rewrite Forall_forall in H. pose proof (H x Hx). rewrite Z.shiftl_mul_pow2 by lia. change (2 ^ 13) with 8192. apply s32_id. lia. }
    split; auto. rewrite E. split. rewrite map_length; auto. apply Forall_forall. intros y Hy. apply in_map_iff in Hy. destruct Hy as (x & <- & Hx).
    rewrite Forall_forall in H. pose proof (H x Hx). change (2 ^ 13) with 8192. lia.
  Qed.
  Lemma v_ok : forall A z c t1 B, 0 <= B <= 2080440319 -> rows l A -> Forall (polyw B) z -> length z = l -> polyw 1 c ->
    Forall (fun t => length t = 256%nat /\ Forall (fun x => 0 <= x <= 1023) t) t1 -> length t1 = length A ->
    v_caddq (v_invntt (v_reduce (v_sub (d_matvec A (v_ntt z)) (v_pointwise_poly (d_ntt c) (v_ntt (v_shiftl t1)))))) =
    map dNTTinv (dvec2 dRsub (dmatvec A (map dNTT z)) (map (fun t => dMul (dNTT c) (dNTT (map (fun x => x * 2 ^ 13) t))) t1)).
  Proof.
    intros A z c t1 B HB HA Pz Lz Pc Pt Lt. unfold rows in HA. revert t1 Pt Lt. unfold v_caddq, v_invntt, v_reduce, v_sub, d_matvec, dmatvec, v_pointwise_poly, v_ntt at 2, v_shiftl.
    induction A as [|row A IH]; intros [|t t1] Pt Lt; cbn [zipv map dvec2]; auto; try discriminate Lt. f_equal.
    2:{ apply IH. apply (Forall_inv_tail HA). apply (Forall_inv_tail Pt). cbn in Lt; lia. }
    destruct (Forall_inv HA) as [Lr Pr]. destruct (Forall_inv Pt) as [L1 H1]. cbv beta in *.
    destruct (row_ok row z B HB Lr Pr Pz Lz) as [E1 W1]. destruct (shiftl_ok t L1 H1) as [E2 W2].
    destruct (d_ntt_ok 1 c ltac:(lia) Pc) as [E3 W3]. destruct (d_ntt_ok 8380416 _ ltac:(lia) W2) as [E4 W4].
    destruct (d_pointwise_ok (d_ntt c) (d_ntt (d_shiftl t)) (1 + 67043328) (8380416 + 67043328) ltac:(lia) ltac:(lia) ltac:(lia) W3 W4) as [E5 W5].
    destruct (d_sub_ok _ _ _ _ W1 W5 ltac:(lia)) as [E6 W6]. rewrite E6 in *.
    rewrite E2 in E4.
    destruct (inv_reduce_ok (psub (d_acc row (v_ntt z)) (d_pointwise (d_ntt c) (d_ntt (d_shiftl t))))
       (dRsub (ddot row (map dNTT z)) (dMul (dNTT c) (dNTT (map (fun x => x * 2 ^ 13) t)))) (58662912 + 8380416) ltac:(lia) W6) as [E7 W7].
    { transitivity (M dq (psub (pscale K32 (ddot row (map dNTT z))) (pscale K32 (dMul (dNTT c) (dNTT (map (fun x => x * 2 ^ 13) t)))))).
      - apply M_psub; [exact E1|]. rewrite E5. apply M_pscale; [apply dq_pos|reflexivity|]. rewrite !dM_Mul. apply dMul_M. rewrite dM_NTT; exact E3. rewrite dM_NTT, E2. exact E4.
      - rewrite <- pscale_psub. apply M_pscale; [apply dq_pos|reflexivity|]. unfold dRsub. rewrite M_M by apply dq_pos. reflexivity. }
    rewrite d_caddqs_ok by (apply (polyw_weaken 4211178); [lia|exact W7]). exact E7.
  Qed.
End Mat.
(** c times a vector *)
Lemma cs_ok : forall c s B, 0 <= B <= 8380416 -> polyw 1 c -> polyw B s ->
  M dq (d_invntt (d_pointwise (d_ntt c) (d_ntt s))) = dNTTinv (dMul (dNTT c) (dNTT s)) /\ polyw 4211178 (d_invntt (d_pointwise (d_ntt c) (d_ntt s))).
Proof.
  intros c s B HB Pc Ps. destruct (d_ntt_ok 1 c ltac:(lia) Pc) as [E3 W3]. destruct (d_ntt_ok B s ltac:(lia) Ps) as [E4 W4].
  destruct (d_pointwise_ok (d_ntt c) (d_ntt s) (1 + 67043328) (B + 67043328) ltac:(lia) ltac:(lia) ltac:(lia) W3 W4) as [E5 W5].
  assert (W6 : polyw 8380417 (d_pointwise (d_ntt c) (d_ntt s))) by (apply (polyw_weaken 8380416); [lia|exact W5]).
  destruct (d_invntt_ok _ W6) as [E7 _]. split; [|apply d_invntt_tight; exact W6]. rewrite E7. apply inv_cancel. rewrite E5.
  apply M_pscale; [apply dq_pos|reflexivity|]. rewrite !dM_Mul. apply dMul_M; rewrite dM_NTT; assumption.
Qed.

(** ** the equation behind verification: A z - c t1 2^d = A y - c s2 + c t0 *)
Lemma mod_ex : forall a b, a mod dq = b mod dq <-> exists k, a = b + k * dq.
Proof.
  intros a b. pose proof dq_pos. split.
  - intro E. exists (a / dq - b / dq). pose proof (Z.div_mod a dq ltac:(lia)). pose proof (Z.div_mod b dq ltac:(lia)). lia.
  - intros [k ->]. apply Z_mod_plus_full.
Qed.
Lemma ntt_add : forall a b n, length a = 256%nat -> length b = 256%nat -> (n < 256)%nat ->
  nth n (dNTT (dRadd a b)) 0 mod dq = (nth n (dNTT a) 0 + nth n (dNTT b) 0) mod dq.
Proof.
  intros a b n La Lb Hn. rewrite (dNTT_M (dRadd a b) (padd a b)) by (unfold dRadd; apply M_M, dq_pos).
  rewrite !dnth_NTT by auto. rewrite Z.mod_mod by (unfold dq; lia). rewrite <- Z.add_mod by (unfold dq; lia). rewrite <- zsum_add.
  f_equal. apply zsum_ext. intros i Hi. rewrite nth_padd by congruence. ring.
Qed.
Lemma zsum_sub : forall n f g, zsum n (fun i => f i - g i) = zsum n f - zsum n g.
Proof. induction n; intros; cbn [zsum]. reflexivity. rewrite IHn. lia. Qed.
Lemma ntt_sub : forall a b n, length a = 256%nat -> length b = 256%nat -> (n < 256)%nat ->
  nth n (dNTT (dRsub a b)) 0 mod dq = (nth n (dNTT a) 0 - nth n (dNTT b) 0) mod dq.
Proof.
  intros a b n La Lb Hn. rewrite (dNTT_M (dRsub a b) (psub a b)) by (unfold dRsub; apply M_M, dq_pos).
  rewrite !dnth_NTT by auto. rewrite Z.mod_mod by (unfold dq; lia). rewrite <- Zminus_mod.
  rewrite <- zsum_sub.
  f_equal. apply zsum_ext. intros i Hi. rewrite nth_psub by congruence. ring.
Qed.
Fixpoint dsum (n : nat) (row v : list (list Z)) : Z :=
  match row, v with x :: row', y :: v' => nth n x 0 * nth n y 0 + dsum n row' v' | _, _ => 0 end.
Lemma nth_ddot : forall n row v, (n < 256)%nat -> nth n (ddot row v) 0 mod dq = dsum n row v mod dq.
Proof.
  intros n. induction row as [|x row IH]; intros [|y v] Hn; cbn [ddot dsum]; try (unfold dRzero; rewrite nth_zeros; reflexivity).
  unfold dRadd. rewrite nth_M, Z.mod_mod by (unfold dq; lia). rewrite nth_padd by (rewrite dlength_Mul, length_ddot; auto).
  rewrite dnth_Mul by auto. rewrite Zplus_mod_idemp_l. rewrite Z.add_mod, IH, <- Z.add_mod by (auto; unfold dq; lia). reflexivity.
Qed.
Lemma dsum_lin : forall n k row v u v', length v = length row -> length u = length row -> length v' = length row ->
  (forall j, (j < length row)%nat -> nth n (nth j v' []) 0 mod dq = (nth n (nth j v []) 0 + k * nth n (nth j u []) 0) mod dq) ->
  dsum n row v' mod dq = (dsum n row v + k * dsum n row u) mod dq.
Proof.
  intros n k. induction row as [|x row IH]; intros [|a v] [|b u] [|c v'] L1 L2 L3 H; try discriminate L1; try discriminate L2; try discriminate L3; cbn [dsum].
  - f_equal. lia.
  - pose proof (H 0%nat ltac:(cbn; lia)) as H0. cbn [nth] in H0. apply mod_ex in H0. destruct H0 as [q1 E1].
    assert (H1 : dsum n row v' mod dq = (dsum n row v + k * dsum n row u) mod dq).
    { apply IH; try (cbn in *; lia). intros j Hj. apply (H (S j)). cbn; lia. }
    apply mod_ex in H1. destruct H1 as [q2 E2]. apply mod_ex. exists (nth n x 0 * q1 + q2). rewrite E1, E2. ring.
Qed.
Lemma M_id : forall f, M dq f = f -> forall g, dNTT f = g -> length f = 256%nat -> f = dNTTinv g.
Proof. intros f E g <- L. rewrite dNTTinv_NTT by auto. symmetry. exact E. Qed.
Theorem key_eq : forall row y s1 z c s2 t0 t1,
  length y = length row -> length s1 = length row -> length z = length row ->
  length c = 256%nat -> Forall (fun p => length p = 256%nat) y -> Forall (fun p => length p = 256%nat) s1 -> length s2 = 256%nat -> length t0 = 256%nat -> length t1 = 256%nat ->
  (forall j, (j < length row)%nat -> M dq (nth j z []) = dRadd (nth j y []) (dNTTinv (dMul (dNTT c) (dNTT (nth j s1 []))))) ->
  dRadd (map (fun x => x * 2 ^ 13) t1) t0 = dRadd (dNTTinv (ddot row (map dNTT s1))) s2 ->
  dNTTinv (dRsub (ddot row (map dNTT z)) (dMul (dNTT c) (dNTT (map (fun x => x * 2 ^ 13) t1)))) =
  dRadd (dRsub (dNTTinv (ddot row (map dNTT y))) (dNTTinv (dMul (dNTT c) (dNTT s2)))) (dNTTinv (dMul (dNTT c) (dNTT t0))).
Proof.
  intros row y s1 z c s2 t0 t1 Ly Ls Lz Lc Py Ps L2 L0 L1 Hz Ht.
  set (T := map (fun x => x * 2 ^ 13) t1) in *. assert (LT : length T = 256%nat) by (unfold T; rewrite map_length; auto).
  set (w := dNTTinv (ddot row (map dNTT y))). set (cs2 := dNTTinv (dMul (dNTT c) (dNTT s2))). set (ct0 := dNTTinv (dMul (dNTT c) (dNTT t0))).
  assert (Lw : length w = 256%nat) by apply dlength_NTTinv. assert (Lcs : length cs2 = 256%nat) by apply dlength_NTTinv. assert (Lct : length ct0 = 256%nat) by apply dlength_NTTinv.
  assert (LR : length (dRsub w cs2) = 256%nat) by (rewrite length_dRsub; congruence).
  symmetry. transitivity (dNTTinv (dNTT (dRadd (dRsub w cs2) ct0))).
  { rewrite dNTTinv_NTT by (rewrite length_dRadd; congruence). unfold dRadd. rewrite M_M by apply dq_pos. reflexivity. }
  apply dNTTinv_M. apply M_ext. rewrite dlength_NTT, length_dRsub; rewrite length_ddot; [reflexivity|rewrite dlength_Mul; reflexivity].
  rewrite dlength_NTT. intros n Hn.
  pose proof (ntt_add (dRsub w cs2) ct0 n LR Lct Hn) as A1. pose proof (ntt_sub w cs2 n Lw Lcs Hn) as A2.
  assert (Ew : nth n (dNTT w) 0 mod dq = dsum n row (map dNTT y) mod dq).
  { unfold w. rewrite dNTT_NTTinv by apply length_ddot. rewrite nth_M, Z.mod_mod by (unfold dq; lia). apply nth_ddot; auto. }
  assert (Ec : nth n (dNTT cs2) 0 mod dq = (nth n (dNTT c) 0 * nth n (dNTT s2) 0) mod dq).
  { unfold cs2. rewrite dNTT_NTTinv by apply dlength_Mul. rewrite nth_M, Z.mod_mod by (unfold dq; lia). rewrite dnth_Mul by auto. apply Z.mod_mod. unfold dq; lia. }
  assert (E0 : nth n (dNTT ct0) 0 mod dq = (nth n (dNTT c) 0 * nth n (dNTT t0) 0) mod dq).
  { unfold ct0. rewrite dNTT_NTTinv by apply dlength_Mul. rewrite nth_M, Z.mod_mod by (unfold dq; lia). rewrite dnth_Mul by auto. apply Z.mod_mod. unfold dq; lia. }
  assert (Et : (nth n (dNTT T) 0 + nth n (dNTT t0) 0) mod dq = (dsum n row (map dNTT s1) + nth n (dNTT s2) 0) mod dq).
  { rewrite <- ntt_add by auto. rewrite Ht. rewrite ntt_add by (auto; apply dlength_NTTinv). rewrite dNTT_NTTinv by apply length_ddot.
    rewrite nth_M, Zplus_mod_idemp_l. rewrite Z.add_mod, nth_ddot, <- Z.add_mod by (auto; unfold dq; lia). reflexivity. }
  assert (Ez : dsum n row (map dNTT z) mod dq = (dsum n row (map dNTT y) + nth n (dNTT c) 0 * dsum n row (map dNTT s1)) mod dq).
  { apply dsum_lin; try (rewrite map_length; auto). intros j Hj.
    rewrite !(nth_indep (map dNTT _) [] (dNTT [])) by (rewrite map_length; lia). rewrite !map_nth.
    assert (Lyj : length (nth j y []) = 256%nat) by (rewrite Forall_forall in Py; apply Py, nth_In; lia).
    assert (Lsj : length (nth j s1 []) = 256%nat) by (rewrite Forall_forall in Ps; apply Ps, nth_In; lia).
    rewrite (dNTT_M (nth j z []) (dRadd (nth j y []) (dNTTinv (dMul (dNTT c) (dNTT (nth j s1 [])))))).
    2:{ rewrite Hz by auto. symmetry. unfold dRadd. apply M_M, dq_pos. }
    rewrite ntt_add by (auto; apply dlength_NTTinv). rewrite dNTT_NTTinv by apply dlength_Mul. rewrite nth_M, dnth_Mul by auto.
    rewrite Z.mod_mod by (unfold dq; lia). rewrite Zplus_mod_idemp_r. reflexivity. }
  assert (EL : nth n (dRsub (ddot row (map dNTT z)) (dMul (dNTT c) (dNTT T))) 0 mod dq = (dsum n row (map dNTT z) - nth n (dNTT c) 0 * nth n (dNTT T) 0) mod dq).
  { unfold dRsub. rewrite nth_M, Z.mod_mod by (unfold dq; lia). rewrite nth_psub by (rewrite length_ddot, dlength_Mul; auto). rewrite dnth_Mul by auto.
    rewrite Zminus_mod, nth_ddot, Z.mod_mod, <- Zminus_mod by (auto; unfold dq; lia). reflexivity. }
  rewrite A1, EL.
  apply mod_ex in A2. apply mod_ex in Ew. apply mod_ex in Ec. apply mod_ex in E0. apply mod_ex in Et. apply mod_ex in Ez. apply mod_ex.
  destruct A2 as [k1 F1]. destruct Ew as [k2 F2]. destruct Ec as [k3 F3]. destruct E0 as [k4 F4]. destruct Et as [k5 F5]. destruct Ez as [k6 F6].
  exists (k1 + k2 - k3 + k4 - k6 + nth n (dNTT c) 0 * k5). rewrite F1, F2, F3, F4, F6.
  assert (F7 : nth n (dNTT T) 0 = dsum n row (map dNTT s1) + nth n (dNTT s2) 0 + k5 * dq - nth n (dNTT t0) 0) by lia. rewrite F7. ring.
Qed.
