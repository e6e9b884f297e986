(** C54, C55, C56: the arithmetic of ML-DSA: reductions, NTT, rounding and hints. *)
From Verif Require Import Bytes Words PolyRing NttLoop NttSim KyberArith KyberNttModel DilithiumModel DilithiumSpec DilithiumArith DilithiumNtt DilithiumNttModel.
Require Import Lia.
Import ListNotations.

(** ** C54 *)
(** montgomery_reduce: documented domain -2^31 Q <= a <= 2^31 Q, documented result -Q < r < Q; it holds on
    -2^31 Q <= a < 2^31 Q *)
Theorem C54_montgomery_partial : forall a, - (2 ^ 31 * 8380417) <= a < 2 ^ 31 * 8380417 ->
  (d_mont a * 2 ^ 32) mod 8380417 = a mod 8380417 /\ -8380417 < d_mont a < 8380417.
Proof. intros a H. change (2 ^ 31 * 8380417) with 17996808470921216 in H. split. exact (dmont_mod a H). exact (dmont_range a H). Qed.
Print Assumptions C54_montgomery_partial.
(** at the upper end of the documented domain the result is Q *)
Theorem C54_montgomery_refuted : exists a, - (2 ^ 31 * 8380417) <= a <= 2 ^ 31 * 8380417 /\ ~ (-8380417 < d_mont a < 8380417).
Proof. exists (2 ^ 31 * 8380417). split. lia. vm_compute. intros [_ H]. discriminate H. Qed.
Print Assumptions C54_montgomery_refuted.
Example C54_montgomery_ex : - (2 ^ 31 * 8380417) <= 123456789012345 < 2 ^ 31 * 8380417 /\ d_mont 123456789012345 = -3424520.
Proof. split; [lia|vm_compute; reflexivity]. Qed.

(** reduce32: documented domain a <= 2^31 - 2^22 - 1, documented result -6283009 <= r <= 6283007 *)
Theorem C54_reduce32_partial : forall a, - 2 ^ 31 <= a <= 2 ^ 31 - 2 ^ 22 - 1 ->
  d_reduce32 a mod 8380417 = a mod 8380417 /\ -6283009 <= d_reduce32 a <= 6283008.
Proof. intros a H. split. apply (dreduce_mod a). lia. apply dreduce_range. lia. Qed.
Print Assumptions C54_reduce32_partial.
Theorem C54_reduce32_refuted : exists a, - 2 ^ 31 <= a <= 2 ^ 31 - 2 ^ 22 - 1 /\ ~ (-6283009 <= d_reduce32 a <= 6283007).
Proof. exists 2143289343. split. lia. vm_compute. intros [_ H]. apply H. reflexivity. Qed.
Print Assumptions C54_reduce32_refuted.
(** both ends are taken *)
Example C54_reduce32_ex : d_reduce32 2143289343 = 6283008 /\ d_reduce32 (-2143289344) = -6283009.
Proof. vm_compute. auto. Qed.

(** caddq: every int32_t *)
Theorem C54_caddq : forall a, - 2 ^ 31 <= a < 2 ^ 31 -> d_caddq a mod 8380417 = a mod 8380417 /\ d_caddq a = if a <? 0 then a + 8380417 else a.
Proof. intros a H. split. apply (dcaddq_mod a); lia. apply dcaddq_ok; lia. Qed.
Print Assumptions C54_caddq.
Theorem C54_caddq_range : forall a, -8380417 < a < 8380417 -> d_caddq a = a mod 8380417.
Proof. exact dcaddq_small. Qed.
Print Assumptions C54_caddq_range.
(** freeze, documented for every element *)
Theorem C54_freeze_partial : forall a, - 2 ^ 31 <= a <= 2 ^ 31 - 2 ^ 22 - 1 -> d_freeze a = a mod 8380417.
Proof. intros a H. apply dfreeze_ok. lia. Qed.
Print Assumptions C54_freeze_partial.
Theorem C54_freeze_refuted : exists a, - 2 ^ 31 <= a < 2 ^ 31 /\ d_freeze a <> a mod 8380417.
Proof. exists 2147483647. split. lia. vm_compute. discriminate. Qed.
Print Assumptions C54_freeze_refuted.
Example C54_freeze_ex : d_freeze (-5) = 8380412 /\ d_freeze 8380417 = 0 /\ d_freeze (- 2 ^ 31) = 6283521.
Proof. vm_compute. auto. Qed.

(** ** C55 *)
(** [polyw B f]: 256 coefficients of absolute value at most B. The NTT of the standard, scaled by nothing; the
    inverse times 2^32, as documented *)
Theorem C55_ntt : forall B f, 0 <= B <= 2080440319 -> polyw B f -> map (fun x => x mod 8380417) (d_ntt f) = dNTT f /\ polyw (B + 67043328) (d_ntt f).
Proof. intros B f H P. destruct (d_ntt_ok B f H P) as [E Q]. split; [|exact Q]. rewrite <- E. unfold M, dq. reflexivity. Qed.
Print Assumptions C55_ntt.
Theorem C55_invntt : forall g, polyw 8380417 g ->
  map (fun x => x mod 8380417) (d_invntt g) = map (fun x => (2 ^ 32 * x) mod 8380417) (dNTTinv g) /\ polyw 8380416 (d_invntt g).
Proof.
  intros g H. destruct (d_invntt_ok g H) as [E P]. split; [|exact P]. transitivity (M dq (pscale (2 ^ 32) (dNTTinv g))). rewrite <- E. unfold M, dq. reflexivity.
  unfold M, pscale. rewrite map_map. reflexivity.
Qed.
Print Assumptions C55_invntt.
(** no addition or subtraction of the two loops leaves int32_t: the loops compute the same with unbounded integers *)
Theorem C55_no_overflow : forall f, (polyw 2080440319 f -> d_ntt f = loop_down d_ct_int dzeta S 256 256 1 128 1 f) /\
  (polyw 8380417 f -> d_invntt f = map (fun x => d_mont (41978 * x)) (loop_up d_gs_int dzeta pred 256 256 256 1 255 f)).
Proof. intros f. split. apply d_ntt_nowrap. apply d_invntt_nowrap. Qed.
Print Assumptions C55_no_overflow.
(** dRmul a b is the product in Z_q[X]/(X^256 + 1) (DilithiumSpec.v: the schoolbook negacyclic convolution);
    the bounds allow up to 67100000 = 8 Q in both factors *)
Theorem C55 : forall A B a b, 0 <= A -> 0 <= B -> (A + 67043328) * (B + 67043328) < 2 ^ 31 * 8380417 -> polyw A a -> polyw B b ->
  map (fun x => x mod 8380417) (d_invntt (d_pointwise (d_ntt a) (d_ntt b))) = dRmul a b /\
  polyw 8380416 (d_invntt (d_pointwise (d_ntt a) (d_ntt b))).
Proof.
  intros A B a b HA HB HAB Pa Pb. change (2 ^ 31 * 8380417) with 17996808470921216 in HAB.
  assert (BA : A <= 2080440319).
  { assert ((A + 67043328) * 67043328 <= (A + 67043328) * (B + 67043328)) by (apply Z.mul_le_mono_nonneg_l; lia). lia. }
  assert (BB : B <= 2080440319).
  { assert (67043328 * (B + 67043328) <= (A + 67043328) * (B + 67043328)) by (apply Z.mul_le_mono_nonneg_r; lia). lia. }
  destruct (d_ntt_ok A a ltac:(lia) Pa) as [EA WA]. destruct (d_ntt_ok B b ltac:(lia) Pb) as [EB WB].
  destruct (d_pointwise_ok _ _ (A + 67043328) (B + 67043328) ltac:(lia) ltac:(lia) HAB WA WB) as [EP WP].
  assert (WP' : polyw 8380417 (d_pointwise (d_ntt a) (d_ntt b))).
  { destruct WP as [L W]. split; auto. eapply Forall_impl; [|exact W]. cbv beta. intros. lia. }
  destruct (d_invntt_ok _ WP') as [EI WI]. split; [|exact WI].
  transitivity (M dq (d_invntt (d_pointwise (d_ntt a) (d_ntt b)))). unfold M, dq. reflexivity. rewrite EI.
  rewrite (dNTTinv_M _ _ EP), dNTTinv_pscale. rewrite (dMul_M _ (dNTT a) _ (dNTT b)) by (rewrite dM_NTT; assumption).
  rewrite dNTTinv_mul by (first [apply Pa | apply Pb]).
  unfold dRmul, M, pscale. rewrite !map_map. apply map_ext. intros x.
  rewrite Zmult_mod_idemp_r. replace (2 ^ 32 * (8265825 * (x mod dq))) with (x mod dq + x mod dq * 4236238847 * dq) by (unfold dq; lia).
  rewrite Z_mod_plus_full. apply Z.mod_mod. unfold dq; lia.
Qed.
Print Assumptions C55.
(** coefficients below Q in absolute value, as every caller has them *)
Example C55_ex : (8380416 + 67043328) * (8380416 + 67043328) < 2 ^ 31 * 8380417 /\ polyw 8380416 (map (fun i => 32000 * Z.of_nat i - 4000000) (seq 0 256)) /\
  firstn 3 (dRmul (map Z.of_nat (seq 0 256)) (0 :: 1 :: zeros 254)) = [8380162; 0; 1].
Proof.
  split; [reflexivity|split].
  - split. reflexivity. apply Forall_forall. intros x Hx. apply in_map_iff in Hx. destruct Hx as (i & <- & Hi). apply in_seq in Hi. lia.
  - vm_compute. reflexivity.
Qed.

(** ** C56 *)
(** the two values of gamma2 with m = (q - 1) / (2 gamma2) *)
Lemma is_g2_of : forall g2, In g2 [95232; 261888] -> exists m, is_g2 g2 m.
Proof. intros g2 [<-|[<-|[]]]. exists 44. left; auto. exists 16. right; auto. Qed.
Theorem C56_power2round : forall a, 0 <= a < 8380417 -> d_power2round a = Power2Round a /\
  a = fst (d_power2round a) * 2 ^ 13 + snd (d_power2round a) /\ - 2 ^ 12 < snd (d_power2round a) <= 2 ^ 12.
Proof. intros a H. split. apply dpower2round_ok; auto. destruct (dpower2round_eq a H) as (E & R & _). split; [exact E|exact R]. Qed.
Print Assumptions C56_power2round.
Theorem C56_decompose : forall g2 a, In g2 [95232; 261888] -> 0 <= a < 8380417 -> d_decompose g2 a = Decompose g2 a /\
  (fst (d_decompose g2 a) * (2 * g2) + snd (d_decompose g2 a)) mod 8380417 = a /\ - g2 <= snd (d_decompose g2 a) <= g2.
Proof.
  intros g2 a H Ha. destruct (is_g2_of g2 H) as [m G]. split. apply (ddecompose_ok g2 m a G Ha).
  rewrite (ddecompose_of g2 m a G Ha). pose proof (dec_of_pair g2 m a G Ha) as P. cbv zeta in P. destruct (dec_of g2 m a) as [r1 r0].
  cbn [fst snd] in *. destruct P as [[P1 P2] E]. split. symmetry; exact E. destruct (is_g2_m _ _ G). lia.
Qed.
Print Assumptions C56_decompose.
Theorem C56_use_hint : forall g2 a h, In g2 [95232; 261888] -> 0 <= a < 8380417 -> h = 0 \/ h = 1 -> d_use_hint g2 a h = UseHint g2 h a.
Proof. intros g2 a h H Ha Hh. destruct (is_g2_of g2 H) as [m G]. apply (duse_hint_ok g2 m a h G Ha Hh). Qed.
Print Assumptions C56_use_hint.
(** recovery: (w1, w0) is the decomposition of r; the hint made from w1 and the perturbed low part w0 + z is that of
    FIPS 204, MakeHint(-z, r + z), and applied to the perturbed value it gives back w1 *)
Theorem C56_hint : forall g2 r z, In g2 [95232; 261888] -> 0 <= r < 8380417 -> - g2 <= z <= g2 ->
  let w1 := fst (d_decompose g2 r) in
  let h := d_make_hint g2 (snd (d_decompose g2 r) + z) w1 in
  h = MakeHint g2 (- z) (r + z) /\ d_use_hint g2 ((r + z) mod 8380417) h = w1 /\ w1 = HighBits g2 r.
Proof.
  intros g2 r z H Hr Hz. destruct (is_g2_of g2 H) as [m G]. destruct (is_g2_m _ _ G) as [E [E1 E0]]. cbv zeta.
  pose proof (dec_of_pair g2 m r G Hr) as [P ER].
  unfold MakeHint, HighBits. rewrite <- (ddecompose_ok g2 m r G Hr). rewrite (ddecompose_of g2 m r G Hr).
  destruct (dec_of g2 m r) as [w1 w0] eqn:D. cbn [fst snd] in *. destruct P as [P1 P2].
  pose proof (duse_make g2 m w1 (w0 + z) G P1 ltac:(lia) ltac:(lia)) as U. cbv zeta in U.
  assert (EA : (w1 * (2 * g2) + (w0 + z)) mod dq = (r + z) mod dq).
  { rewrite Z.add_assoc, Z.add_mod, <- ER by (unfold dq; lia). rewrite Zplus_mod_idemp_r. reflexivity. }
  rewrite EA in U. destruct U as [U1 U2].
  assert (RA : 0 <= (r + z) mod dq < 8380417) by (apply (Z.mod_pos_bound _ dq); reflexivity).
  assert (HM : forall x, Decompose g2 (x mod dq) = Decompose g2 x) by (intros x; unfold Decompose; rewrite Z.mod_mod by (unfold dq; lia); reflexivity).
  assert (HX : fst (Decompose g2 (r + z + - z)) = w1).
  { replace (r + z + - z) with r by lia. rewrite <- (ddecompose_ok g2 m r G Hr), (ddecompose_of g2 m r G Hr), D. reflexivity. }
  split; [|split].
  - rewrite HX. unfold HighBits in U1. rewrite HM in U1. exact U1.
  - change 8380417 with dq. rewrite (duse_hint_ok g2 m _ _ G RA). exact U2. unfold d_make_hint. destruct (_ || _); auto.
  - reflexivity.
Qed.
Print Assumptions C56_hint.
(** a set hint moves the high part by exactly one step modulo m = (q - 1) / (2 gamma2), a clear one leaves it *)
Theorem C56_one_step : forall g2 a, In g2 [95232; 261888] -> 0 <= a < 8380417 ->
  let m := (8380417 - 1) / (2 * g2) in
  d_use_hint g2 a 0 = HighBits g2 a /\ (d_use_hint g2 a 1 = (HighBits g2 a + 1) mod m \/ d_use_hint g2 a 1 = (HighBits g2 a - 1) mod m).
Proof.
  intros g2 a H Ha. cbv zeta. rewrite !(C56_use_hint g2 a) by auto. unfold UseHint, HighBits. change 8380417 with dq.
  destruct (Decompose g2 a) as [r1 r0]. cbn [fst]. split. reflexivity. change (1 =? 1) with true. rewrite !andb_true_l.
  destruct (Z.ltb_spec 0 r0). left; reflexivity. destruct (Z.leb_spec r0 0); [|lia]. right; reflexivity.
Qed.
Print Assumptions C56_one_step.
(** the hint matters: r just below a boundary, moved over it *)
Example C56_ex : d_decompose 261888 261888 = (0, 261888) /\ d_make_hint 261888 (261888 + 1) 0 = 1 /\ HighBits 261888 261889 = 1 /\ d_use_hint 261888 261889 1 = 0 /\ d_decompose 95232 8380416 = (0, -1) /\ d_decompose 95232 8285184 = (43, 95232) /\ d_decompose 95232 8285185 = (0, -95232).
Proof. vm_compute. auto 10. Qed.
