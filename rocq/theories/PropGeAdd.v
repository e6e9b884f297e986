(** * C109: addition and doubling of Ed25519 points *)
From Coq Require Import ZArith Lia Bool List Zdiv Znumtheory Setoid Morphisms.
From Verif Require Import X25519Spec GeSmallModel Pocklington Prime25519 PropSmallOrder GeDecodeModel PropGeDecode GeAddModel.
Open Scope Z_scope.

(** ** RFC 8032 5.1.4, affine: the sum of (x1, y1) and (x2, y2) *)
Definition sum (x1 y1 x2 y2 x3 y3 : Z) : Prop := exists u v,
  cg ((1 + d8032 * x1 * x2 * y1 * y2) * u) 1 /\ cg ((1 - d8032 * x1 * x2 * y1 * y2) * v) 1 /\
  cg x3 ((x1 * y2 + x2 * y1) * u) /\ cg y3 ((y1 * y2 + x1 * x2) * v).
(** extended coordinates of (x, y) *)
Definition ext (p : pt) (x y : Z) : Prop :=
  stands_for (pX p) (pY p) (pZ p) x y /\ cg (pT p * pZ p) (pX p * pY p).

#[local] Existing Instance cg_equiv.
#[local] Existing Instance cg_add.
#[local] Existing Instance cg_mul.
#[local] Existing Instance cg_sub.

Lemma cg_eq : forall a b, a = b -> cg a b.
Proof. intros a b ->. reflexivity. Qed.
Lemma cg_dec : forall a b, cg a b \/ ~ cg a b.
Proof. intros a b. rewrite cg_iff. destruct (Z.eq_dec (a mod p25519) (b mod p25519)); [left|right]; assumption. Qed.
Lemma inverse : forall a, ~ cg a 0 -> exists w, cg (a * w) 1.
Proof.
  intros a N. exists (a ^ (p25519 - 2)).
  assert (F : (p25519 | a ^ (p25519 - 1) - 1)).
  { apply fermat; [exact prime_p25519|]. intros D. apply N. apply cg_divide. exact D. }
  assert (G : 0 <= p25519 - 2) by (apply Z.leb_le; vm_compute; reflexivity).
  assert (E : p25519 - 1 = Z.succ (p25519 - 2)) by lia. rewrite E in F.
  rewrite (Z.pow_succ_r a (p25519 - 2) G) in F.
  apply cg_sub0. apply cg_divide. exact F.
Qed.
Lemma cg_opp : forall a b, cg a b -> cg (- a) (- b).
Proof. intros a b H. replace (- a) with (0 - a) by ring. replace (- b) with (0 - b) by ring. rewrite H. reflexivity. Qed.

(** ** -d is not a square: its (p-1)/4-th power is a root of -1 *)
Definition nd : Z := - d8032 mod p25519.
Lemma nonsquare : forall z, ~ cg (z * z) (- d8032).
Proof.
  intros z H.
  assert (Hz : cg nd (z * z)) by (rewrite H; apply cg_mod).
  assert (N : ~ cg z 0).
  { intros K. rewrite K in Hz. revert Hz. apply ncg. vm_compute. reflexivity. }
  assert (T : cg (nd ^ (2 * e22523 + 1)) (mul (sq (pow22523 nd)) nd)).
  { rewrite cg_mulr, cg_sqr, pow22523_ok.
    assert (E0 : 0 <= e22523) by (apply Z.leb_le; vm_compute; reflexivity).
    generalize dependent e22523. intros e E0.
    replace (2 * e + 1) with (e + e + 1) by ring. rewrite !Z.pow_add_r, Z.pow_1_r by lia. reflexivity. }
  assert (V : (fun t => negb (t =? 1) && negb (t =? p25519 - 1)) (mul (sq (pow22523 nd)) nd) = true).
  { vm_compute. reflexivity. }
  assert (R : 0 <= mul (sq (pow22523 nd)) nd < p25519) by apply mul_range.
  cbv beta in V. apply andb_prop in V. destruct V as [V1 V2]. apply negb_true_iff in V1, V2. apply Z.eqb_neq in V1, V2.
  destruct (unit_square nd z Hz N) as [K|K]; rewrite T in K.
  - apply V1. apply cg_small; [exact R|pose proof p_pos; lia|exact K].
  - apply V2. apply cg_small; [exact R|pose proof p_pos; lia|]. rewrite K. cgc.
Qed.

(** ** The denominators are never 0 (Bernstein, Lange) *)
Lemma square_ratio : forall a b, cg (- d8032 * (a * a)) (b * b) -> cg a 0.
Proof.
  intros a b H. destruct (cg_dec a 0) as [|N]; [assumption|exfalso].
  destruct (inverse a N) as [w W]. apply (nonsquare (b * w)).
  replace (b * w * (b * w)) with (b * b * (w * w)) by ring. rewrite <- H.
  replace (- d8032 * (a * a) * (w * w)) with (- d8032 * ((a * w) * (a * w))) by ring.
  rewrite W. replace (- d8032 * (1 * 1)) with (- d8032) by ring. reflexivity.
Qed.

Lemma eps_impossible : forall x1 y1 x2 y2 e, on_curve x1 y1 -> on_curve x2 y2 -> cg (e * e) 1 ->
  ~ cg (d8032 * x1 * x2 * y1 * y2) e.
Proof.
  intros x1 y1 x2 y2 e C1 C2 E H.
  (* the substitution X = i x gives an untwisted curve *)
  assert (K : forall s, cg (s * s) 1 ->
    cg (- d8032 * ((sqrtm1 * x1 * y1 * (sqrtm1 * x2 + s * y2)) * (sqrtm1 * x1 * y1 * (sqrtm1 * x2 + s * y2))))
       ((sqrtm1 * x1 + s * e * y1) * (sqrtm1 * x1 + s * e * y1))).
  { intros s S. unfold on_curve in C1, C2. pose proof sqrtm1_ok as I. generalize dependent sqrtm1. intros i I.
    transitivity (- d8032 * ((i * i) * (x1 * x1) * (y1 * y1)) * ((i * i) * (x2 * x2) + (s * s) * (y2 * y2) + 2 * s * i * x2 * y2)).
    { apply cg_eq. ring. }
    transitivity ((i * i) * (x1 * x1) + (s * s) * (e * e) * (y1 * y1) + 2 * i * s * e * x1 * y1).
    2:{ apply cg_eq. ring. }
    rewrite I, S, E.
    transitivity (d8032 * (x1 * x1) * (y1 * y1) * (y2 * y2 - x2 * x2) + 2 * i * s * (d8032 * x1 * x2 * y1 * y2) * x1 * y1).
    { apply cg_eq. ring. }
    rewrite H, C2.
    transitivity (d8032 * (x1 * x1) * (y1 * y1) + (d8032 * x1 * x2 * y1 * y2) * (d8032 * x1 * x2 * y1 * y2) + 2 * i * s * e * x1 * y1).
    { apply cg_eq. ring. }
    rewrite H, E.
    transitivity ((1 + d8032 * (x1 * x1) * (y1 * y1)) + 2 * i * s * e * x1 * y1).
    { apply cg_eq. ring. }
    rewrite <- C1.
    apply cg_eq. ring. }
  assert (N : ~ cg e 0).
  { intros Z0. rewrite Z0 in E. revert E. apply ncg. vm_compute. reflexivity. }
  assert (I0 : ~ cg sqrtm1 0) by (apply ncg; vm_compute; reflexivity).
  pose proof (square_ratio _ _ (K 1 ltac:(reflexivity))) as A.
  pose proof (square_ratio _ _ (K (-1) ltac:(reflexivity))) as B.
  assert (X1 : ~ cg (sqrtm1 * x1 * y1) 0).
  { intros Z0. apply integral in Z0. destruct Z0 as [Z0|Z0].
    - apply integral in Z0. destruct Z0 as [Z0|Z0]; [contradiction|]. apply N. rewrite <- H, Z0.
      apply cg_eq. ring.
    - apply N. rewrite <- H, Z0. apply cg_eq. ring. }
  apply integral in A. apply integral in B. destruct A as [A|A]; [contradiction|]. destruct B as [B|B]; [contradiction|].
  assert (D : cg (2 * y2) 0).
  { replace (2 * y2) with ((sqrtm1 * x2 + 1 * y2) - (sqrtm1 * x2 + -1 * y2)) by ring. rewrite A, B. reflexivity. }
  apply integral in D. destruct D as [D|D]; [revert D; apply ncg; vm_compute; reflexivity|].
  apply N. rewrite <- H, D. apply cg_eq. ring.
Qed.

Lemma denominators : forall x1 y1 x2 y2, on_curve x1 y1 -> on_curve x2 y2 ->
  ~ cg (1 + d8032 * x1 * x2 * y1 * y2) 0 /\ ~ cg (1 - d8032 * x1 * x2 * y1 * y2) 0.
Proof.
  intros x1 y1 x2 y2 C1 C2. split; intros H.
  - apply (eps_impossible x1 y1 x2 y2 (-1) C1 C2); [reflexivity|].
    replace (d8032 * x1 * x2 * y1 * y2) with ((1 + d8032 * x1 * x2 * y1 * y2) + -1) by ring. rewrite H. reflexivity.
  - apply (eps_impossible x1 y1 x2 y2 1 C1 C2); [reflexivity|].
    replace (d8032 * x1 * x2 * y1 * y2) with (1 - (1 - d8032 * x1 * x2 * y1 * y2)) by ring. rewrite H. reflexivity.
Qed.


Lemma closure_identity : forall d x1 y1 x2 y2,
  let e := d * x1 * x2 * y1 * y2 in let A := x1 * y2 + x2 * y1 in let B := y1 * y2 + x1 * x2 in
  (B * B) * ((1 + e) * (1 + e)) - (A * A) * ((1 - e) * (1 - e)) - ((1 + e) * (1 - e)) * ((1 + e) * (1 - e)) - d * (A * A) * (B * B) =
  ((-1) * d * d * d * x1 * x1 * y1 * y1 * x2 * x2 * x2 * x2 * y2 * y2 * y2 * y2 + 1 * d * d * x1 * x1 * x2 * x2 * x2 * x2 * y2 * y2 * y2 * y2 + (-1) * d * d * y1 * y1 * x2 * x2 * x2 * x2 * y2 * y2 * y2 * y2 + 1 * d * d * x2 * x2 * x2 * x2 * y2 * y2 * y2 * y2 + 1 * d * x1 * x1 * x2 * x2 * x2 * x2 * y2 * y2 + (-1) * d * x1 * x1 * x2 * x2 * y2 * y2 * y2 * y2 + (-1) * d * y1 * y1 * x2 * x2 * x2 * x2 * y2 * y2 + 1 * d * y1 * y1 * x2 * x2 * y2 * y2 * y2 * y2 + 2 * d * x2 * x2 * x2 * x2 * y2 * y2 * y2 * y2 + 2 * d * x2 * x2 * y2 * y2 + 2 * x2 * x2 * x2 * x2 * y2 * y2 + (-1) * x2 * x2 * x2 * x2 + (-2) * x2 * x2 * y2 * y2 * y2 * y2 + 4 * x2 * x2 * y2 * y2 + (-1) * y2 * y2 * y2 * y2) *
    (d * (x1 * x1) * (y1 * y1) + 1 + x1 * x1 - y1 * y1) +
  ((-1) * d * x1 * x1 * x1 * x1 * x2 * x2 * y2 * y2 + (-2) * d * x1 * x1 * x2 * x2 * y2 * y2 + (-1) * d * y1 * y1 * y1 * y1 * x2 * x2 * y2 * y2 + 2 * d * y1 * y1 * x2 * x2 * y2 * y2 + (-1) * d * x2 * x2 * y2 * y2 + (-2) * x1 * x1 * x2 * x2 * y2 * y2 + 1 * x1 * x1 * x2 * x2 + (-1) * x1 * x1 * y2 * y2 + 2 * y1 * y1 * x2 * x2 * y2 * y2 + (-1) * y1 * y1 * x2 * x2 + 1 * y1 * y1 * y2 * y2 + (-2) * x2 * x2 * y2 * y2 + 1 * x2 * x2 + (-1) * y2 * y2 + (-1)) *
    (d * (x2 * x2) * (y2 * y2) + 1 + x2 * x2 - y2 * y2).
Proof. intros. unfold e, A, B. ring. Qed.

Lemma curve_zero : forall x y, on_curve x y -> cg (d8032 * (x * x) * (y * y) + 1 + x * x - y * y) 0.
Proof.
  intros x y H. unfold on_curve in H.
  replace (d8032 * (x * x) * (y * y) + 1 + x * x - y * y) with ((1 + d8032 * (x * x) * (y * y)) - (y * y - x * x)) by ring.
  apply cg_sub0. symmetry. exact H.
Qed.

(** the sum of two points of the curve exists and is on the curve *)
Theorem C109_closed : forall x1 y1 x2 y2, on_curve x1 y1 -> on_curve x2 y2 ->
  (exists x3 y3, sum x1 y1 x2 y2 x3 y3) /\ forall x3 y3, sum x1 y1 x2 y2 x3 y3 -> on_curve x3 y3.
Proof.
  intros x1 y1 x2 y2 C1 C2. split.
  - destruct (denominators x1 y1 x2 y2 C1 C2) as [A B]. destruct (inverse _ A) as [u U]. destruct (inverse _ B) as [v V].
    exists ((x1 * y2 + x2 * y1) * u), ((y1 * y2 + x1 * x2) * v). exists u, v. repeat apply conj; assumption || reflexivity.
  - intros x3 y3 (u & v & U & V & X & Y).
    pose proof (curve_zero _ _ C1) as Z1. pose proof (curve_zero _ _ C2) as Z2.
    unfold on_curve. rewrite X, Y. apply cg_sub0. clear X Y C1 C2.
    pose proof (closure_identity d8032 x1 y1 x2 y2) as I. cbv zeta in I.
    generalize dependent d8032. intros d U V Z1 Z2 I.
    set (A := x1 * y2 + x2 * y1) in *. set (B := y1 * y2 + x1 * x2) in *.
    set (e := d * x1 * x2 * y1 * y2) in *.
    transitivity ((B * B) * (v * v) * (((1 + e) * u) * ((1 + e) * u)) - (A * A) * (u * u) * (((1 - e) * v) * ((1 - e) * v))
      - (((1 + e) * u) * ((1 - e) * v)) * (((1 + e) * u) * ((1 - e) * v)) - d * (A * A) * (u * u) * ((B * B) * (v * v))).
    { rewrite U, V. apply cg_eq. ring. }
    match goal with |- cg ?a 0 => replace a with ((u * u) * (v * v) * ((B * B) * ((1 + e) * (1 + e)) - (A * A) * ((1 - e) * (1 - e)) - ((1 + e) * (1 - e)) * ((1 + e) * (1 - e)) - d * (A * A) * (B * B))) by ring end.
    rewrite I. clear I. rewrite Z1, Z2, !Z.mul_0_r. reflexivity.
Qed.
Print Assumptions C109_closed.

(** ** The code *)
Lemma finish : forall r c w A B e u v x3 y3, cg (c * w) 1 ->
  cg (pX r) (c * A) -> cg (pY r) (c * B) -> cg (pZ r) (c * (1 + e)) -> cg (pT r) (c * (1 - e)) ->
  cg ((1 + e) * u) 1 -> cg ((1 - e) * v) 1 -> cg x3 (A * u) -> cg y3 (B * v) -> ext (p1p1_to_p3 r) x3 y3.
Proof.
  intros [X Y Z T] c w A B e u v x3 y3 W HX HY HZ HT U V Ex Ey. cbn [pX pY pZ pT] in *.
  unfold ext, p1p1_to_p3. cbn [pX pY pZ pT]. split.
  - unfold stands_for. repeat apply conj.
    + rewrite !cg_mulr, HX, Ex, HZ. transitivity (c * A * T * ((1 + e) * u)).
      * rewrite U. apply cg_eq. ring.
      * apply cg_eq. ring.
    + rewrite !cg_mulr, HY, Ey, HT. transitivity (c * B * Z * ((1 - e) * v)).
      * rewrite V. apply cg_eq. ring.
      * apply cg_eq. ring.
    + exists (w * u * (w * v)). rewrite cg_mulr, HZ, HT.
      transitivity ((c * w) * ((1 + e) * u) * ((c * w) * ((1 - e) * v))).
      * apply cg_eq. ring.
      * rewrite W, U, V. reflexivity.
  - rewrite !cg_mulr. apply cg_eq. ring.
Qed.

Lemma ext_T : forall p x y, ext p x y -> cg (pT p) (x * y * pZ p).
Proof.
  intros [X Y Z T] x y [(HX & HY & w & W) HT]. cbn [pX pY pZ pT] in *.
  transitivity (T * (Z * w)); [rewrite W, Z.mul_1_r; reflexivity|].
  replace (T * (Z * w)) with (T * Z * w) by ring. rewrite HT, HX, HY.
  replace (x * Z * (y * Z) * w) with (x * y * Z * (Z * w)) by ring. rewrite W, Z.mul_1_r. reflexivity.
Qed.
Lemma d2_ok : cg ed25519_d2 (2 * d8032). Proof. cgc. Qed.
Lemma two_unit : cg (2 * ((p25519 + 1) / 2)) 1. Proof. cgc. Qed.

Ltac cgring := apply cg_eq; ring.

(** ge25519_p3_add: the sum, for all points of the curve and all representations *)
Theorem C109_add : forall p q x1 y1 x2 y2 x3 y3, ext p x1 y1 -> ext q x2 y2 ->
  sum x1 y1 x2 y2 x3 y3 -> ext (p3_add p q) x3 y3.
Proof.
  intros p q x1 y1 x2 y2 x3 y3 E1 E2 (u & v & U & V & Ex & Ey).
  pose proof (ext_T _ _ _ E1) as T1. pose proof (ext_T _ _ _ E2) as T2.
  destruct E1 as [(HX1 & HY1 & w1 & W1) _]. destruct E2 as [(HX2 & HY2 & w2 & W2) _].
  unfold p3_add.
  apply (finish _ (2 * (pZ p * pZ q)) ((p25519 + 1) / 2 * (w1 * w2)) (x1 * y2 + x2 * y1) (y1 * y2 + x1 * x2)
    (d8032 * x1 * x2 * y1 * y2) u v); try assumption.
  - pose proof two_unit as H2. generalize dependent ((p25519 + 1) / 2). intros h H2.
    transitivity ((2 * h) * ((pZ p * w1) * (pZ q * w2))); [cgring|]. rewrite H2, W1, W2. reflexivity.
  - unfold add_cached, p3_to_cached. cbn [pX pY pZ pT YplusX YminusX cZ T2d].
    rewrite !cg_subr, !cg_mulr, !cg_addr, !cg_subr, HX1, HY1, HX2, HY2. cgring.
  - unfold add_cached, p3_to_cached. cbn [pX pY pZ pT YplusX YminusX cZ T2d].
    rewrite !cg_addr, !cg_mulr, !cg_addr, !cg_subr, HX1, HY1, HX2, HY2. cgring.
  - unfold add_cached, p3_to_cached. cbn [pX pY pZ pT YplusX YminusX cZ T2d].
    rewrite !cg_addr, !cg_mulr, T1, T2, d2_ok. cgring.
  - unfold add_cached, p3_to_cached. cbn [pX pY pZ pT YplusX YminusX cZ T2d].
    rewrite !cg_subr, !cg_addr, !cg_mulr, T1, T2, d2_ok. cgring.
Qed.
Print Assumptions C109_add.

Lemma ext_neg : forall p x y, ext p x y -> ext (p3_neg p) (- x) y.
Proof.
  intros [X Y Z T] x y [(HX & HY & W) HT]. unfold ext, p3_neg, stands_for. cbn [pX pY pZ pT] in *.
  repeat apply conj.
  - rewrite cg_subr, HX. cgring.
  - exact HY.
  - exact W.
  - rewrite !cg_subr. transitivity (0 - T * Z); [cgring|]. rewrite HT. cgring.
Qed.
(** ge25519_p3_sub: the sum with the opposite point *)
Theorem C109_sub : forall p q x1 y1 x2 y2 x3 y3, ext p x1 y1 -> ext q x2 y2 ->
  sum x1 y1 (- x2) y2 x3 y3 -> ext (p3_sub p q) x3 y3.
Proof.
  intros p q x1 y1 x2 y2 x3 y3 E1 E2 S. unfold p3_sub.
  apply (C109_add p (p3_neg q) x1 y1 (- x2) y2); [exact E1|apply ext_neg; exact E2|exact S].
Qed.
Print Assumptions C109_sub.

(** ge25519_sub_cached, used by the scalar multiplications, too *)
Theorem C109_sub_cached : forall p q x1 y1 x2 y2 x3 y3, ext p x1 y1 -> ext q x2 y2 ->
  sum x1 y1 (- x2) y2 x3 y3 -> ext (p1p1_to_p3 (sub_cached p (p3_to_cached q))) x3 y3.
Proof.
  intros p q x1 y1 x2 y2 x3 y3 E1 E2 (u & v & U & V & Ex & Ey).
  pose proof (ext_T _ _ _ E1) as T1. pose proof (ext_T _ _ _ E2) as T2.
  destruct E1 as [(HX1 & HY1 & w1 & W1) _]. destruct E2 as [(HX2 & HY2 & w2 & W2) _].
  apply (finish _ (2 * (pZ p * pZ q)) ((p25519 + 1) / 2 * (w1 * w2)) (x1 * y2 + - x2 * y1) (y1 * y2 + x1 * - x2)
    (d8032 * x1 * - x2 * y1 * y2) u v); try assumption.
  - pose proof two_unit as H2. generalize dependent ((p25519 + 1) / 2). intros h H2.
    transitivity ((2 * h) * ((pZ p * w1) * (pZ q * w2))); [cgring|]. rewrite H2, W1, W2. reflexivity.
  - unfold sub_cached, p3_to_cached. cbn [pX pY pZ pT YplusX YminusX cZ T2d].
    rewrite !cg_subr, !cg_mulr, !cg_addr, !cg_subr, HX1, HY1, HX2, HY2. cgring.
  - unfold sub_cached, p3_to_cached. cbn [pX pY pZ pT YplusX YminusX cZ T2d].
    rewrite !cg_addr, !cg_mulr, !cg_addr, !cg_subr, HX1, HY1, HX2, HY2. cgring.
  - unfold sub_cached, p3_to_cached. cbn [pX pY pZ pT YplusX YminusX cZ T2d].
    rewrite !cg_subr, !cg_addr, !cg_mulr, T1, T2, d2_ok. cgring.
  - unfold sub_cached, p3_to_cached. cbn [pX pY pZ pT YplusX YminusX cZ T2d].
    rewrite !cg_addr, !cg_mulr, T1, T2, d2_ok. cgring.
Qed.
Print Assumptions C109_sub_cached.

(** ge25519_p3_dbl: the sum of a point with itself *)
Theorem C109_dbl : forall p x y x3 y3, on_curve x y -> ext p x y -> sum x y x y x3 y3 ->
  ext (p1p1_to_p3 (p3_dbl p)) x3 y3.
Proof.
  intros p x y x3 y3 C E (u & v & U & V & Ex & Ey).
  destruct E as [(HX & HY & w & W) _]. unfold on_curve in C.
  apply (finish _ (pZ p * pZ p) (w * w) (x * y + x * y) (y * y + x * x) (d8032 * x * x * y * y) u v); try assumption.
  - transitivity ((pZ p * w) * (pZ p * w)); [cgring|]. rewrite W. reflexivity.
  - unfold p3_dbl, p2_dbl. cbn [pX pY pZ pT]. rewrite cg_subr, (cg_mulr (add (pX p) (pY p))), !cg_addr, !cg_mulr, HX, HY. cgring.
  - unfold p3_dbl, p2_dbl. cbn [pX pY pZ pT]. rewrite !cg_addr, !cg_mulr, HX, HY. cgring.
  - unfold p3_dbl, p2_dbl. cbn [pX pY pZ pT]. rewrite !cg_subr, !cg_mulr, HX, HY.
    transitivity (pZ p * pZ p * (y * y - x * x)); [cgring|]. rewrite C. cgring.
  - unfold p3_dbl, p2_dbl. cbn [pX pY pZ pT]. rewrite !cg_subr, !cg_mulr, HX, HY.
    transitivity (pZ p * pZ p * (2 - (y * y - x * x))); [cgring|]. rewrite C. cgring.
Qed.
Print Assumptions C109_dbl.

(** every point of the curve has extended coordinates; the neutral element is
    neutral and the opposite is opposite, through the same code *)
Theorem C109_neutral : forall p x y, on_curve x y -> ext p x y ->
  ext (p3_add p (Pt 0 1 1 0)) x y /\ ext (p3_sub p p) 0 1.
Proof.
  intros p x y C E.
  assert (E0 : ext (Pt 0 1 1 0) 0 1).
  { unfold ext, stands_for. cbn [pX pY pZ pT]. repeat apply conj; try reflexivity. exists 1. reflexivity. }
  split.
  - apply (C109_add p (Pt 0 1 1 0) x y 0 1); [exact E|exact E0|]. exists 1, 1.
    repeat apply conj; cgring.
  - assert (C' : on_curve (- x) y) by (apply curve_neg; exact C).
    destruct (C109_closed x y (- x) y C C') as [(x3 & y3 & S) _].
    apply (C109_sub p p x y x y); [exact E|exact E|].
    destruct S as (u & v & U & V & _ & _). exists u, v. repeat apply conj; try assumption.
    + cgring.
    + unfold on_curve in C. rewrite <- V at 1.
      transitivity ((y * y - x * x) * v); [|cgring]. rewrite C. cgring.
Qed.
Print Assumptions C109_neutral.

(** the base point of RFC 8032, doubled *)
Example C109_ex : on_curve base_x base_y /\ ext (Pt base_x base_y 1 (base_x * base_y)) base_x base_y /\
  exists x3 y3, sum base_x base_y base_x base_y x3 y3 /\ on_curve x3 y3 /\
    ext (p1p1_to_p3 (p3_dbl (Pt base_x base_y 1 (base_x * base_y)))) x3 y3.
Proof.
  assert (C : on_curve base_x base_y) by cgc.
  assert (E : ext (Pt base_x base_y 1 (base_x * base_y)) base_x base_y).
  { unfold ext, stands_for. cbn [pX pY pZ pT]. repeat apply conj; try cgc. exists 1. reflexivity. }
  split; [exact C|]. split; [exact E|].
  destruct (C109_closed _ _ _ _ C C) as [(x3 & y3 & S) K]. exists x3, y3. split; [exact S|]. split; [exact (K _ _ S)|].
  exact (C109_dbl _ _ _ _ _ C E S).
Qed.
