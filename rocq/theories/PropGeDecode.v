(** * C108: decoding of Ed25519 points *)
From Coq Require Import ZArith Lia Bool List Zdiv Znumtheory Setoid Morphisms.
From Verif Require Import X25519Spec GeSmallModel Pocklington Prime25519 PropSmallOrder GeDecodeModel.
Import ListNotations.
Open Scope Z_scope.

(** ** RFC 8032 5.1.3, stated on its own: the low 255 bits are y, below p; the
    top bit is the parity of x; (x, y) is on the curve.  (x = 0 with the top bit
    set is refused, as 0 is even.) *)
Definition rfc_point (s : list Z) (x y : Z) : Prop :=
  y = le s mod 2 ^ 255 /\ y < p25519 /\ 0 <= x < p25519 /\ on_curve x y /\ Z.odd x = (128 <=? nth 31 s 0).
(** the same with y reduced and without a look at the sign of 0 *)
Definition loose_point (s : list Z) (x y : Z) : Prop :=
  y = (le s mod 2 ^ 255) mod p25519 /\ 0 <= x < p25519 /\ on_curve x y /\
  (x = 0 \/ Z.odd x = (128 <=? nth 31 s 0)).

#[local] Existing Instance cg_equiv.
#[local] Existing Instance cg_add.
#[local] Existing Instance cg_mul.
#[local] Existing Instance cg_sub.

Lemma p_pos : 1 < p25519. Proof. apply Z.ltb_lt. vm_compute. reflexivity. Qed.
Lemma cg_addr : forall a b, cg (add a b) (a + b). Proof. intros a b. apply cg_mod. Qed.
Lemma cg_sqr : forall a, cg (sq a) (a * a). Proof. intros a. apply cg_mod. Qed.

Lemma cg_pow : forall a b n, 0 <= n -> cg a b -> cg (a ^ n) (b ^ n).
Proof.
  intros a b n Hn H. revert n Hn. apply natlike_ind; [reflexivity|]. intros n Hn IH.
  rewrite !Z.pow_succ_r by lia. rewrite IH, H. reflexivity.
Qed.
Lemma integral : forall a b, cg (a * b) 0 -> cg a 0 \/ cg b 0.
Proof. exact (cg_integral prime_p25519). Qed.

(** ** fe25519_pow22523 *)
Lemma pw_mul : forall z a b i j, 0 <= i -> 0 <= j -> cg a (z ^ i) -> cg b (z ^ j) -> cg (mul a b) (z ^ (i + j)).
Proof. intros z a b i j Hi Hj A B. rewrite cg_mulr, A, B, Z.pow_add_r by lia. reflexivity. Qed.
Lemma pw_sq : forall z a i, 0 <= i -> cg a (z ^ i) -> cg (sq a) (z ^ (2 * i)).
Proof. intros z a i Hi A. replace (2 * i) with (i + i) by lia. apply pw_mul; assumption. Qed.
Lemma pw_sqn : forall n z a i, 0 <= i -> cg a (z ^ i) -> cg (sqn n a) (z ^ (2 ^ Z.of_nat n * i)).
Proof.
  induction n as [|n IH]; intros z a i Hi A; cbn [sqn].
  - rewrite Z.mul_1_l. exact A.
  - rewrite Nat2Z.inj_succ, Z.pow_succ_r by lia.
    replace (2 * 2 ^ Z.of_nat n * i) with (2 ^ Z.of_nat n * (2 * i)) by ring.
    apply IH; [lia|]. apply pw_sq; assumption.
Qed.
(** [a] is the i-th power of z; a type of its own, so that no power is ever computed *)
Inductive Pw (z a i : Z) : Prop := PwI : 0 <= i -> cg a (z ^ i) -> Pw z a i.
Lemma Pw_mul : forall z a b i j k, Pw z a i -> Pw z b j -> i + j = k -> Pw z (mul a b) k.
Proof. intros z a b i j k [Hi A] [Hj B] <-. constructor; [lia|]. apply pw_mul; assumption. Qed.
Lemma Pw_sq : forall z a i k, Pw z a i -> 2 * i = k -> Pw z (sq a) k.
Proof. intros z a i k [Hi A] <-. constructor; [lia|]. apply pw_sq; assumption. Qed.
Lemma Pw_step : forall z n a b i j k, Pw z a i -> Pw z b j -> 2 ^ Z.of_nat n * i + j = k -> Pw z (mul (sqn n a) b) k.
Proof.
  intros z n a b i j k [Hi A] [Hj B] <-.
  assert (0 <= 2 ^ Z.of_nat n * i) by (apply Z.mul_nonneg_nonneg; [apply Z.pow_nonneg; lia|exact Hi]).
  constructor; [lia|]. apply pw_mul; [assumption|exact Hj| |exact B]. apply pw_sqn; assumption.
Qed.
Definition e22523 : Z := 2 ^ 252 - 3.
Lemma chain22523 : forall z a0 a1 a2 a3 a4 a5 a6 b1 b2 b3 b4 b5 b6 b7,
  a0 = sq z ->
  a1 = sq a0 ->
  a2 = sq a1 ->
  a3 = mul z a2 ->
  a4 = mul a0 a3 ->
  a5 = sq a4 ->
  a6 = mul a3 a5 ->
  b1 = mul (sqn 5 a6) a6 ->
  b2 = mul (sqn 10 b1) b1 ->
  b3 = mul (sqn 20 b2) b2 ->
  b4 = mul (sqn 10 b3) b1 ->
  b5 = mul (sqn 50 b4) b4 ->
  b6 = mul (sqn 100 b5) b5 ->
  b7 = mul (sqn 50 b6) b4 ->
  Pw z (mul (sq (sq b7)) z) e22523.
Proof.
  intros z a0 a1 a2 a3 a4 a5 a6 b1 b2 b3 b4 b5 b6 b7 Ea0 Ea1 Ea2 Ea3 Ea4 Ea5 Ea6 Eb1 Eb2 Eb3 Eb4 Eb5 Eb6 Eb7.
  assert (Z1 : Pw z z 1) by (constructor; [lia|]; rewrite Z.pow_1_r; reflexivity).
  assert (A0 : Pw z a0 (2)) by (rewrite Ea0; refine (Pw_sq z z 1 _ Z1 _); vm_compute; reflexivity). clear Ea0.
  assert (A1 : Pw z a1 (4)) by (rewrite Ea1; refine (Pw_sq z a0 2 _ A0 _); vm_compute; reflexivity). clear Ea1.
  assert (A2 : Pw z a2 (8)) by (rewrite Ea2; refine (Pw_sq z a1 4 _ A1 _); vm_compute; reflexivity). clear Ea2.
  assert (A3 : Pw z a3 (9)) by (rewrite Ea3; refine (Pw_mul z z a2 1 8 _ Z1 A2 _); vm_compute; reflexivity). clear Ea3.
  assert (A4 : Pw z a4 (11)) by (rewrite Ea4; refine (Pw_mul z a0 a3 2 9 _ A0 A3 _); vm_compute; reflexivity). clear Ea4.
  assert (A5 : Pw z a5 (22)) by (rewrite Ea5; refine (Pw_sq z a4 11 _ A4 _); vm_compute; reflexivity). clear Ea5.
  assert (A6 : Pw z a6 (2 ^ 5 - 1)) by (rewrite Ea6; refine (Pw_mul z a3 a5 9 22 _ A3 A5 _); vm_compute; reflexivity). clear Ea6.
  assert (B1 : Pw z b1 (2 ^ 10 - 1)) by (rewrite Eb1; refine (Pw_step z 5 a6 a6 (2 ^ 5 - 1) (2 ^ 5 - 1) _ A6 A6 _); vm_compute; reflexivity). clear Eb1.
  assert (B2 : Pw z b2 (2 ^ 20 - 1)) by (rewrite Eb2; refine (Pw_step z 10 b1 b1 (2 ^ 10 - 1) (2 ^ 10 - 1) _ B1 B1 _); vm_compute; reflexivity). clear Eb2.
  assert (B3 : Pw z b3 (2 ^ 40 - 1)) by (rewrite Eb3; refine (Pw_step z 20 b2 b2 (2 ^ 20 - 1) (2 ^ 20 - 1) _ B2 B2 _); vm_compute; reflexivity). clear Eb3.
  assert (B4 : Pw z b4 (2 ^ 50 - 1)) by (rewrite Eb4; refine (Pw_step z 10 b3 b1 (2 ^ 40 - 1) (2 ^ 10 - 1) _ B3 B1 _); vm_compute; reflexivity). clear Eb4.
  assert (B5 : Pw z b5 (2 ^ 100 - 1)) by (rewrite Eb5; refine (Pw_step z 50 b4 b4 (2 ^ 50 - 1) (2 ^ 50 - 1) _ B4 B4 _); vm_compute; reflexivity). clear Eb5.
  assert (B6 : Pw z b6 (2 ^ 200 - 1)) by (rewrite Eb6; refine (Pw_step z 100 b5 b5 (2 ^ 100 - 1) (2 ^ 100 - 1) _ B5 B5 _); vm_compute; reflexivity). clear Eb6.
  assert (B7 : Pw z b7 (2 ^ 250 - 1)) by (rewrite Eb7; refine (Pw_step z 50 b6 b4 (2 ^ 200 - 1) (2 ^ 50 - 1) _ B6 B4 _); vm_compute; reflexivity). clear Eb7.
  refine (Pw_mul z (sq (sq b7)) z (2 ^ 252 - 4) 1 _ _ Z1 _); [|vm_compute; reflexivity].
  refine (Pw_sq z (sq b7) (2 ^ 251 - 2) _ _ _); [|vm_compute; reflexivity].
  refine (Pw_sq z b7 (2 ^ 250 - 1) _ B7 _). vm_compute. reflexivity.
Qed.
Lemma pow22523_Pw : forall z, Pw z (pow22523 z) e22523.
Proof. intros z. unfold pow22523. cbv zeta. eapply chain22523; reflexivity. Qed.
Lemma pow22523_ok : forall z, cg (pow22523 z) (z ^ e22523).
Proof. intros z. destruct (pow22523_Pw z) as [_ H]. exact H. Qed.

(** ** Square roots.  [t] is the (p-1)/4-th power *)
Lemma unit_square : forall c z, cg c (z * z) -> ~ cg z 0 ->
  cg (c ^ (2 * e22523 + 1)) 1 \/ cg (c ^ (2 * e22523 + 1)) (-1).
Proof.
  intros c z C N.
  assert (E0 : 0 <= 2 * e22523 + 1) by (apply Z.leb_le; vm_compute; reflexivity).
  assert (E4 : p25519 - 1 = 2 * ((2 * e22523 + 1) * 2)) by (vm_compute; reflexivity).
  assert (F : cg (z ^ (p25519 - 1)) 1).
  { apply cg_sub0. apply cg_divide. apply fermat; [exact prime_p25519|]. intros D. apply N. apply cg_divide. exact D. }
  generalize dependent (2 * e22523 + 1). intros k E0 E4. rewrite E4 in F.
  set (t := c ^ k).
  assert (T : cg (t * t) 1).
  { unfold t. replace (c ^ k * c ^ k) with (c ^ (k * 2)) by (rewrite Z.pow_mul_r by lia; change 2 with (Z.succ 1); rewrite Z.pow_succ_r, Z.pow_1_r by lia; reflexivity).
    rewrite (cg_pow c (z * z) (k * 2)) by (lia || exact C).
    replace ((z * z) ^ (k * 2)) with (z ^ (2 * (k * 2))); [exact F|].
    rewrite Z.pow_mul_r by lia. f_equal. change 2 with (Z.succ 1). rewrite Z.pow_succ_r, Z.pow_1_r by lia. reflexivity. }
  assert (Q : cg ((t - 1) * (t + 1)) 0).
  { replace ((t - 1) * (t + 1)) with (t * t - 1) by ring. apply cg_sub0. exact T. }
  destruct (integral _ _ Q) as [H|H]; [left|right].
  - apply cg_sub0. exact H.
  - apply cg_sub0. replace (t - -1) with (t + 1) by ring. exact H.
Qed.

(** whenever u / v has a root, the candidate satisfies v x^2 = u or -u *)
Lemma candidate : forall u v c z X, cg c (z * z) -> (cg z 0 -> cg u 0) ->
  cg (v * (X * X)) (u * c ^ (2 * e22523 + 1)) ->
  cg (X * X * v) u \/ cg (X * X * v) (- u).
Proof.
  intros u v c z X C U H.
  rewrite (Z.mul_comm (X * X) v), H.
  assert (Dz : cg z 0 \/ ~ cg z 0).
  { rewrite cg_iff. destruct (Z.eq_dec (z mod p25519) (0 mod p25519)); [left|right]; assumption. }
  destruct Dz as [Hz|Hz].
  - left. rewrite (U Hz). rewrite Z.mul_0_l. reflexivity.
  - destruct (unit_square c z C Hz) as [T|T]; rewrite T; [left|right].
    + rewrite Z.mul_1_r. reflexivity.
    + replace (u * -1) with (- u) by ring. reflexivity.
Qed.

Lemma curve_iff : forall x y, on_curve x y <-> cg ((x * x) * (y * y * d8032 + 1)) (y * y - 1).
Proof.
  intros x y. unfold on_curve. rewrite <- (cg_sub0 (y * y - x * x)), <- (cg_sub0 (x * x * (y * y * d8032 + 1))).
  split; intros H.
  - replace (x * x * (y * y * d8032 + 1) - (y * y - 1)) with (0 - (y * y - x * x - (1 + d8032 * (x * x) * (y * y)))) by ring.
    rewrite H. reflexivity.
  - replace (y * y - x * x - (1 + d8032 * (x * x) * (y * y))) with (0 - (x * x * (y * y * d8032 + 1) - (y * y - 1))) by ring.
    rewrite H. reflexivity.
Qed.

(** v is never 0 where a root exists *)
Lemma v_nonzero : forall x y, on_curve x y -> ~ cg (y * y * d8032 + 1) 0.
Proof.
  intros x y H V. apply curve_iff in H. rewrite V, Z.mul_0_r in H. symmetry in H. apply (proj1 (cg_sub0 (y * y) 1)) in H.
  rewrite H in V. revert V. apply ncg. vm_compute. reflexivity.
Qed.
Lemma two_roots : forall x x' y, on_curve x y -> on_curve x' y -> cg x x' \/ cg x (- x').
Proof.
  intros x x' y H K. pose proof (v_nonzero _ _ H) as V. apply curve_iff in H, K.
  set (v := y * y * d8032 + 1) in *.
  assert (Q : cg (v * ((x - x') * (x + x'))) 0).
  { replace (v * ((x - x') * (x + x'))) with (x * x * v - x' * x' * v) by ring. apply cg_sub0. rewrite H, K. reflexivity. }
  destruct (integral _ _ Q) as [B|B]; [contradiction|]. destruct (integral _ _ B) as [E|E]; [left|right].
  - apply cg_sub0. exact E.
  - apply cg_sub0. replace (x - - x') with (x + x') by ring. exact E.
Qed.
Lemma curve_neg : forall x y, on_curve x y -> on_curve (- x) y.
Proof. intros x y H. apply curve_iff in H. apply curve_iff. replace (- x * - x) with (x * x) by ring. exact H. Qed.
Lemma curve_cg : forall x x' y, cg x x' -> on_curve x y -> on_curve x' y.
Proof. intros x x' y E H. apply curve_iff in H. apply curve_iff. rewrite <- E. exact H. Qed.

(** ** Signs *)
Lemma p_odd : Z.odd p25519 = true. Proof. vm_compute. reflexivity. Qed.
Lemma neg_small : forall x, 0 < x < p25519 -> sub 0 x = p25519 - x.
Proof.
  intros x H. unfold sub. symmetry. apply (Z.mod_unique_pos (0 - x) p25519 (-1)); lia.
Qed.
Lemma neg_zero : sub 0 0 = 0. Proof. vm_compute. reflexivity. Qed.
Lemma neg_odd : forall x, 0 < x < p25519 -> Z.odd (sub 0 x) = negb (Z.odd x).
Proof.
  intros x H. rewrite (neg_small x H), Z.odd_sub, p_odd. destruct (Z.odd x); reflexivity.
Qed.
Lemma sub_range : forall a b, 0 <= sub a b < p25519.
Proof. intros a b. apply Z.mod_pos_bound. pose proof p_pos. lia. Qed.
Lemma mul_range : forall a b, 0 <= mul a b < p25519.
Proof. intros a b. apply Z.mod_pos_bound. pose proof p_pos. lia. Qed.
Lemma cg_small : forall x x', 0 <= x < p25519 -> 0 <= x' < p25519 -> cg x x' -> x = x'.
Proof. intros x x' H K [E]. rewrite !Z.mod_small in E by assumption. exact E. Qed.

(** the sign step: of the two roots the one with the wanted parity *)
Definition signed (X : Z) (b : bool) : Z := if xorb (isnegative X) b then sub 0 X else X.
Lemma signed_ok : forall X y b, 0 <= X < p25519 -> on_curve X y -> forall x,
  x = signed X b <-> (0 <= x < p25519 /\ on_curve x y /\ (x = 0 \/ Z.odd x = b)).
Proof.
  intros X y b R C x. unfold signed, isnegative. rewrite (Z.mod_small X) by exact R.
  assert (Dec : X = 0 \/ 0 < X) by lia. split.
  - intros ->. destruct (xorb (Z.odd X) b) eqn:E.
    + split; [apply sub_range|]. split.
      * apply (curve_cg (- X)); [|apply curve_neg; exact C]. rewrite cg_subr. replace (0 - X) with (- X) by ring. reflexivity.
      * destruct Dec as [->|Hp]; [left; apply neg_zero|right]. rewrite neg_odd by lia.
        destruct (Z.odd X), b; try discriminate E; reflexivity.
    + split; [exact R|]. split; [exact C|]. right. destruct (Z.odd X), b; try discriminate E; reflexivity.
  - intros (Rx & Cx & P).
    destruct Dec as [->|Hp].
    + assert (x = 0). { destruct (two_roots x 0 y Cx C) as [E|E]; apply cg_small in E; auto; lia. }
      subst x. destruct (xorb _ _); [symmetry; apply neg_zero|reflexivity].
    + assert (Cases : x = X \/ x = sub 0 X).
      { destruct (two_roots x X y Cx C) as [E|E]; [left|right]; apply cg_small; auto using sub_range.
        rewrite cg_subr. replace (0 - X) with (- X) by ring. exact E. }
      assert (X0 : x <> 0). { destruct Cases as [->| ->]; [lia|]. rewrite neg_small by lia. lia. }
      destruct P as [P|P]; [contradiction|].
      destruct Cases as [->| ->].
      * rewrite P. destruct b; reflexivity.
      * rewrite neg_odd in P by lia. rewrite <- P. destruct (Z.odd X); reflexivity.
Qed.

(** ** The two decoders *)
Lemma root_choice : forall X u v y, cg v (y * y * d8032 + 1) -> cg u (y * y - 1) -> 0 <= X < p25519 ->
  (cg (X * X * v) u -> on_curve X y) /\ (cg (X * X * v) (- u) -> on_curve (mul X sqrtm1) y).
Proof.
  intros X u v y V U R. split; intros H.
  - apply curve_iff. rewrite <- V, <- U. exact H.
  - apply (curve_cg (X * sqrtm1)); [symmetry; apply cg_mulr|]. apply curve_iff. rewrite <- V, <- U.
    replace (X * sqrtm1 * (X * sqrtm1) * v) with (X * X * v * (sqrtm1 * sqrtm1)) by ring.
    rewrite H, sqrtm1_ok. replace (- u * -1) with u by ring. reflexivity.
Qed.
Lemma iszero_sub : forall a b, iszero (sub a b) = true <-> cg a b.
Proof. intros a b. rewrite iszero_iff, cg_subr. apply cg_sub0. Qed.
Lemma iszero_add : forall a b, iszero (add a b) = true <-> cg a (- b).
Proof. intros a b. rewrite iszero_iff, cg_addr, <- (cg_sub0 a (- b)). replace (a - - b) with (a + b) by ring. reflexivity. Qed.

Lemma frombytes_some : forall s x y, ge_frombytes s = Some (x, y) <-> loose_point s x y.
Proof.
  intros s x y. unfold ge_frombytes. cbv zeta. set (Y := fe_frombytes s).
  set (u := sub (sq Y) 1). set (v := add (mul (sq Y) ed25519_d) 1).
  assert (U : cg u (Y * Y - 1)) by (unfold u; rewrite cg_subr, cg_sqr; reflexivity).
  assert (V : cg v (Y * Y * d8032 + 1)) by (unfold v; rewrite cg_addr, cg_mulr, cg_sqr; reflexivity).
  set (X := mul u (pow22523 (mul u v))).
  assert (R : 0 <= X < p25519) by apply mul_range.
  assert (E0 : 0 <= e22523) by (apply Z.leb_le; vm_compute; reflexivity).
  assert (EX : cg (v * (X * X)) (u * (u * v) ^ (2 * e22523 + 1))).
  { unfold X. rewrite cg_mulr, pow22523_ok, (cg_pow (mul u v) (u * v) e22523 E0 (cg_mulr u v)).
    replace (2 * e22523 + 1) with (e22523 + e22523 + 1) by ring.
    generalize dependent e22523. intros e E0. rewrite !Z.pow_add_r, Z.pow_1_r by lia.
    assert (Q : forall a, v * (u * a * (u * a)) = u * (a * a * (u * v))) by (intros; ring). rewrite Q. reflexivity. }
  assert (M : iszero (sub (mul (sq X) v) u) = true <-> cg (X * X * v) u).
  { rewrite iszero_sub, cg_mulr, cg_sqr. reflexivity. }
  assert (Pr : iszero (add (mul (sq X) v) u) = true <-> cg (X * X * v) (- u)).
  { rewrite iszero_add, cg_mulr, cg_sqr. reflexivity. }
  destruct (root_choice X u v Y V U R) as [Q1 Q2].
  change (top s) with (128 <=? nth 31 s 0).
  assert (Fin : forall X', 0 <= X' < p25519 -> on_curve X' Y ->
    (Some (if xorb (isnegative X') (128 <=? nth 31 s 0) then sub 0 X' else X', Y) = Some (x, y) <-> loose_point s x y)).
  { intros X' R' C'. change (if xorb (isnegative X') (128 <=? nth 31 s 0) then sub 0 X' else X') with (signed X' (128 <=? nth 31 s 0)).
    pose proof (signed_ok X' Y (128 <=? nth 31 s 0) R' C' x) as S. unfold loose_point. split.
    - intros E. injection E as Ex <-. symmetry in Ex. apply S in Ex. split; [reflexivity|exact Ex].
    - intros (-> & H). f_equal. f_equal. symmetry. apply S. exact H. }
  destruct (iszero (sub (mul (sq X) v) u)) eqn:E1.
  - cbn [orb]. apply Fin; [exact R|]. apply Q1. apply M. reflexivity.
  - destruct (iszero (add (mul (sq X) v) u)) eqn:E2; cbn [orb].
    + apply Fin; [apply mul_range|]. apply Q2. apply Pr. reflexivity.
    + split; [discriminate|]. intros (-> & Rx & C & _). exfalso.
      change ((le s mod 2 ^ 255) mod p25519) with Y in C. apply curve_iff in C. rewrite <- V, <- U in C.
      destruct (candidate u v (u * v) (v * x) X) as [H|H].
      * rewrite <- C at 1. replace (x * x * v * v) with (v * x * (v * x)) by ring. reflexivity.
      * intros Z0. rewrite <- C. replace (x * x * v) with (x * (v * x)) by ring. rewrite Z0, Z.mul_0_r. reflexivity.
      * exact EX.
      * apply M in H. discriminate H.
      * apply Pr in H. discriminate H.
Qed.

Lemma negate_some : forall s x' y,
  ge_frombytes_negate s = Some (x', y) <-> exists x, loose_point s x y /\ x' = (- x) mod p25519.
Proof.
  intros s x' y. unfold ge_frombytes_negate. cbv zeta. set (Y := fe_frombytes s).
  set (u := sub (sq Y) 1). set (v := add (mul (sq Y) ed25519_d) 1).
  assert (U : cg u (Y * Y - 1)) by (unfold u; rewrite cg_subr, cg_sqr; reflexivity).
  assert (V : cg v (Y * Y * d8032 + 1)) by (unfold v; rewrite cg_addr, cg_mulr, cg_sqr; reflexivity).
  set (v3 := mul (sq v) v). assert (V3 : cg v3 (v * v * v)) by (unfold v3; rewrite cg_mulr, cg_sqr; reflexivity).
  set (c := mul (mul (sq v3) v) u).
  assert (Hc : cg c (v * v * v * (v * v * v) * v * u)).
  { unfold c. rewrite !cg_mulr, cg_sqr, V3. reflexivity. }
  set (X := mul (mul (pow22523 c) v3) u).
  assert (R : 0 <= X < p25519) by apply mul_range.
  assert (E0 : 0 <= e22523) by (apply Z.leb_le; vm_compute; reflexivity).
  assert (EX : cg (v * (X * X)) (u * c ^ (2 * e22523 + 1))).
  { unfold X. rewrite !cg_mulr, pow22523_ok, V3.
    replace (2 * e22523 + 1) with (e22523 + e22523 + 1) by ring.
    generalize dependent e22523. intros e E0. rewrite !Z.pow_add_r, Z.pow_1_r by lia.
    set (a := c ^ e).
    assert (Q : v * (a * (v * v * v) * u * (a * (v * v * v) * u)) = u * (a * a * (v * v * v * (v * v * v) * v * u))) by ring.
    rewrite Q, <- Hc. reflexivity. }
  assert (M : iszero (sub (mul (sq X) v) u) = true <-> cg (X * X * v) u).
  { rewrite iszero_sub, cg_mulr, cg_sqr. reflexivity. }
  assert (Pr : iszero (add (mul (sq X) v) u) = true <-> cg (X * X * v) (- u)).
  { rewrite iszero_add, cg_mulr, cg_sqr. reflexivity. }
  destruct (root_choice X u v Y V U R) as [Q1 Q2].
  change (top s) with (128 <=? nth 31 s 0). set (b := 128 <=? nth 31 s 0).
  assert (NN : forall w, 0 <= w < p25519 -> sub 0 (sub 0 w) = w).
  { intros w Rw. apply cg_small; [apply sub_range|exact Rw|]. rewrite !cg_subr. replace (0 - (0 - w)) with w by ring. reflexivity. }
  assert (Sg : forall X', 0 <= X' < p25519 ->
    (if Bool.eqb (isnegative X') b then sub 0 X' else X') = sub 0 (signed X' b)).
  { intros X' R'. unfold signed. destruct (isnegative X'), b; cbn [Bool.eqb xorb]; try reflexivity; symmetry; apply NN; exact R'. }
  assert (Fin : forall X', 0 <= X' < p25519 -> on_curve X' Y ->
    (Some (if Bool.eqb (isnegative X') b then sub 0 X' else X', Y) = Some (x', y) <->
     exists x, loose_point s x y /\ x' = (- x) mod p25519)).
  { intros X' R' C'. rewrite (Sg X' R'). unfold loose_point. fold b. split.
    - intros E. injection E as Ex <-. exists (signed X' b). split; [|symmetry; exact Ex].
      split; [reflexivity|]. exact (proj1 (signed_ok X' Y b R' C' _) eq_refl).
    - intros (x & (-> & H) & ->). f_equal. f_equal.
      apply (signed_ok X' Y b R' C' x) in H. rewrite H. reflexivity. }
  destruct (iszero (sub (mul (sq X) v) u)) eqn:E1; cbn [negb].
  - apply Fin; [exact R|]. apply Q1. apply M. reflexivity.
  - destruct (iszero (add (mul (sq X) v) u)) eqn:E2; cbn [negb].
    + apply Fin; [apply mul_range|]. apply Q2. apply Pr. reflexivity.
    + split; [discriminate|]. intros (x & (-> & Rx & C & _) & _). exfalso.
      change ((le s mod 2 ^ 255) mod p25519) with Y in C. apply curve_iff in C. rewrite <- V, <- U in C.
      destruct (candidate u v c (v * v * v * v * x) X) as [H|H].
      * rewrite Hc. rewrite <- C.
        replace (v * v * v * (v * v * v) * v * (x * x * v)) with (v * v * v * v * x * (v * v * v * v * x)) by ring. reflexivity.
      * intros Z0. rewrite <- C. destruct (integral _ _ Z0) as [K|K].
        -- assert (cg v 0) as ->; [|rewrite Z.mul_0_r; reflexivity].
           destruct (integral _ _ K) as [K1|K1]; [|exact K1]. destruct (integral _ _ K1) as [K2|K2]; [|exact K2].
           destruct (integral _ _ K2) as [K3|K3]; exact K3.
        -- rewrite K. reflexivity.
      * exact EX.
      * apply M in H. discriminate H.
      * apply Pr in H. discriminate H.
Qed.

(** ge25519_frombytes answers the point (x, y) exactly for the strings of the
    looser reading *)
Theorem C108_exact : forall s x y, ge_frombytes s = Some (x, y) <-> loose_point s x y.
Proof. exact frombytes_some. Qed.
Print Assumptions C108_exact.

(** ge25519_frombytes_negate_vartime answers (-x, y) for the same strings *)
Theorem C108_negate : forall s x' y,
  ge_frombytes_negate s = Some (x', y) <-> exists x, loose_point s x y /\ x' = (- x) mod p25519.
Proof. exact negate_some. Qed.
Print Assumptions C108_negate.

(** every string RFC 8032 decodes is decoded, to that point *)
Theorem C108_accepts : forall s x y, rfc_point s x y ->
  ge_frombytes s = Some (x, y) /\ ge_frombytes_negate s = Some ((- x) mod p25519, y).
Proof.
  intros s x y (Ey & Hy & Rx & C & P).
  assert (L : loose_point s x y).
  { split; [|split; [exact Rx|split; [exact C|right; exact P]]].
    rewrite <- Ey. symmetry. apply Z.mod_small. split; [|exact Hy]. rewrite Ey. apply Z.mod_pos_bound. reflexivity. }
  split; [apply C108_exact; exact L|]. apply C108_negate. exists x. split; [exact L|reflexivity].
Qed.
Print Assumptions C108_accepts.

(** a string with y below p that is decoded is one RFC 8032 decodes, unless x is 0 *)
Theorem C108_refuses : forall s x y, le s mod 2 ^ 255 < p25519 -> ge_frombytes s = Some (x, y) -> x <> 0 ->
  rfc_point s x y.
Proof.
  intros s x y Hy H N. apply C108_exact in H. destruct H as (Ey & Rx & C & [P|P]); [contradiction|].
  rewrite Z.mod_small in Ey by (split; [apply Z.mod_pos_bound; reflexivity|exact Hy]).
  split; [exact Ey|]. split; [rewrite Ey; exact Hy|]. split; [exact Rx|]. split; [exact C|exact P].
Qed.
Print Assumptions C108_refuses.

(** decoding fails exactly if no point of the curve has this y *)
Theorem C108_none : forall s, ge_frombytes s = None <-> forall x, ~ on_curve x ((le s mod 2 ^ 255) mod p25519).
Proof.
  intros s. split.
  - intros H x C.
    assert (R : 0 <= x mod p25519 < p25519) by (apply Z.mod_pos_bound; pose proof p_pos; lia).
    assert (C' : on_curve (x mod p25519) ((le s mod 2 ^ 255) mod p25519)).
    { apply (curve_cg x); [symmetry; apply cg_mod|exact C]. }
    pose proof (proj1 (signed_ok _ _ (128 <=? nth 31 s 0) R C' _) eq_refl) as S.
    assert (L : ge_frombytes s = Some (signed (x mod p25519) (128 <=? nth 31 s 0), (le s mod 2 ^ 255) mod p25519)).
    { apply C108_exact. split; [reflexivity|exact S]. }
    rewrite L in H. discriminate H.
  - intros H. destruct (ge_frombytes s) as [[x y]|] eqn:E; [|reflexivity].
    apply C108_exact in E. destruct E as (-> & _ & C & _). destruct (H x C).
Qed.
Print Assumptions C108_none.

(** ** Where the decoder accepts more than RFC 8032 5.1.3 *)
Definition s_zero : list Z := 1 :: repeat 0 30 ++ [128].
(** y = 1 (so x = 0) with the sign bit set *)
Theorem C108_zero_sign_refuted : exists s, length s = 32%nat /\ Forall (fun b => 0 <= b < 256) s /\
  ge_frombytes s = Some (0, 1) /\ forall x y, ~ rfc_point s x y.
Proof.
  exists s_zero. split; [reflexivity|]. split; [repeat constructor; lia|].
  assert (Y : (le s_zero mod 2 ^ 255) mod p25519 = 1) by (vm_compute; reflexivity).
  assert (C : on_curve 0 1) by cgc.
  split.
  - apply C108_exact. split; [symmetry; exact Y|]. split; [pose proof p_pos; lia|]. split; [exact C|left; reflexivity].
  - intros x y (Ey & _ & Rx & Cx & P).
    assert (Y1 : le s_zero mod 2 ^ 255 = 1) by (vm_compute; reflexivity). rewrite Y1 in Ey. subst y.
    assert (x = 0).
    { apply cg_small; [exact Rx|pose proof p_pos; lia|].
      destruct (two_roots x 0 1 Cx C) as [E|E]; exact E. }
    subst x. vm_compute in P. discriminate P.
Qed.
Print Assumptions C108_zero_sign_refuted.

Definition s_big : list Z := 240 :: repeat 255 30 ++ [127].
Definition x3 : Z := 47490639360184182837601875270316946735278442122217188244898328344323804759522.
(** y = p + 3, the point with y = 3 *)
Theorem C108_canonical_refuted : exists s x, length s = 32%nat /\ Forall (fun b => 0 <= b < 256) s /\
  ge_frombytes s = Some (x, 3) /\ small_order x 3 1 = false /\ forall x y, ~ rfc_point s x y.
Proof.
  exists s_big, x3. split; [reflexivity|]. split; [repeat constructor; lia|].
  assert (L : loose_point s_big x3 3).
  { split; [vm_compute; reflexivity|]. split; [split; [apply Z.leb_le|apply Z.ltb_lt]; vm_compute; reflexivity|].
    split; [cgc|right; vm_compute; reflexivity]. }
  split; [apply C108_exact; exact L|]. split.
  - apply not_true_is_false. rewrite C106_decoded.
    intros [E|[E|[E|E]]]; revert E; apply ncg; vm_compute; reflexivity.
  - intros x y (Ey & Hy & _). rewrite Ey in Hy. apply Z.ltb_lt in Hy. vm_compute in Hy. discriminate Hy.
Qed.
Print Assumptions C108_canonical_refuted.

(** the base point of RFC 8032 is decoded, and y = 2 is not *)
Definition base_y : Z := 46316835694926478169428394003475163141307993866256225615783033603165251855960.
Definition base_x : Z := 15112221349535400772501151409588531511454012693041857206046113283949847762202.
Example C108_ex : rfc_point (88 :: repeat 102 31) base_x base_y /\
  ge_frombytes (88 :: repeat 102 31) = Some (base_x, base_y).
Proof.
  assert (R : rfc_point (88 :: repeat 102 31) base_x base_y).
  { split; [vm_compute; reflexivity|]. split; [apply Z.ltb_lt; vm_compute; reflexivity|].
    split; [split; [apply Z.leb_le|apply Z.ltb_lt]; vm_compute; reflexivity|]. split; [cgc|vm_compute; reflexivity]. }
  split; [exact R|]. apply (C108_accepts _ _ _ R).
Qed.
Example C108_ex_none : ge_frombytes (2 :: repeat 0 31) = None.
Proof. vm_compute. reflexivity. Qed.
