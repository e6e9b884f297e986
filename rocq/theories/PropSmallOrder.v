(** * C106: the small-order test of Ed25519 points *)
From Coq Require Import ZArith Lia Bool Zdiv Znumtheory Setoid Morphisms.
From Verif Require Import X25519Spec GeSmallModel Prime25519.
Open Scope Z_scope.

(** ** the curve of RFC 8032 5.1, affine; [cg] is equality modulo p *)
Inductive cg (a b : Z) : Prop := Cg : a mod p25519 = b mod p25519 -> cg a b.
Ltac cgc := constructor; vm_compute; reflexivity.
Lemma cg_iff : forall a b, cg a b <-> a mod p25519 = b mod p25519.
Proof. intros a b. split; [intros [H]; exact H|apply Cg]. Qed.
Definition d8032 : Z := 37095705934669439343138083508754565189542113879843219016388785533085940283555.
Example d8032_ok : cg (d8032 * 121666) (-121665). Proof. cgc. Qed.
Definition on_curve (x y : Z) : Prop := cg (y * y - x * x) (1 + d8032 * (x * x) * (y * y)).
(** the doubling of 5.1.4: x' = 2xy / (1 + d x^2 y^2), y' = (y^2 + x^2) / (1 - d x^2 y^2) *)
Definition dbl (x y x' y' : Z) : Prop := exists u v,
  cg ((1 + d8032 * (x * x) * (y * y)) * u) 1 /\ cg ((1 - d8032 * (x * x) * (y * y)) * v) 1 /\
  cg x' (2 * (x * y) * u) /\ cg y' ((y * y + x * x) * v).
(** (x, y) has order dividing 8: three doublings give the neutral element *)
Definition order8 (x y : Z) : Prop := exists x2 y2 x4 y4 x8 y8,
  dbl x y x2 y2 /\ dbl x2 y2 x4 y4 /\ dbl x4 y4 x8 y8 /\ cg x8 0 /\ cg y8 1.
(** (X : Y : Z) stands for the affine point (x, y) *)
Definition stands_for (X Y Z x y : Z) : Prop := cg X (x * Z) /\ cg Y (y * Z) /\ exists w, cg (Z * w) 1.

#[local] Instance cg_equiv : Equivalence cg.
Proof. split; [intros x; now constructor|intros x y [H]; now constructor|intros x y z [H] [K]; constructor; congruence]. Qed.
#[local] Instance cg_add : Proper (cg ==> cg ==> cg) Z.add.
Proof. intros a a' H b b' K. destruct H as [H], K as [K]. constructor. rewrite Zplus_mod, H, K, <- Zplus_mod. reflexivity. Qed.
#[local] Instance cg_mul : Proper (cg ==> cg ==> cg) Z.mul.
Proof. intros a a' H b b' K. destruct H as [H], K as [K]. constructor. rewrite Zmult_mod, H, K, <- Zmult_mod. reflexivity. Qed.
#[local] Instance cg_sub : Proper (cg ==> cg ==> cg) Z.sub.
Proof. intros a a' H b b' K. destruct H as [H], K as [K]. constructor. rewrite Zminus_mod, H, K, <- Zminus_mod. reflexivity. Qed.
Lemma cg_mod : forall a, cg (a mod p25519) a.
Proof. intros a. constructor. apply Zmod_mod. Qed.
Lemma iszero_iff : forall v, iszero v = true <-> cg v 0.
Proof. intros v. unfold iszero. rewrite cg_iff, Zmod_0_l. apply Z.eqb_eq. Qed.
Lemma ncg : forall a b, (a mod p25519 =? b mod p25519) = false -> ~ cg a b.
Proof. intros a b E [H]. rewrite H, Z.eqb_refl in E. discriminate E. Qed.
Lemma cg_sub0 : forall a b, cg (a - b) 0 <-> cg a b.
Proof.
  intros a b. split; intros H.
  - assert (E : a = (a - b) + b) by ring. rewrite E, H. reflexivity.
  - rewrite H, Z.sub_diag. reflexivity.
Qed.
Lemma sqrtm1_ok : cg (sqrtm1 * sqrtm1) (-1).
Proof. cgc. Qed.
Lemma inv_1 : inv 1 = 1.
Proof. unfold inv. rewrite Z.pow_1_l; [reflexivity|]. apply Z.leb_le. vm_compute. reflexivity. Qed.
Lemma inv_m1 : cg (inv (-1)) (-1).
Proof.
  unfold inv. rewrite cg_mod. apply cg_iff.
  assert (E : p25519 - 2 = 2 * ((p25519 - 3) / 2) + 1) by (vm_compute; reflexivity). rewrite E.
  assert (P : 0 <= (p25519 - 3) / 2) by (apply Z.div_pos; [apply Z.leb_le; vm_compute; reflexivity|lia]).
  generalize dependent ((p25519 - 3) / 2). intros q _ P.
  rewrite Z.pow_add_r, Z.pow_mul_r by lia. change ((-1) ^ 2) with 1. rewrite Z.pow_1_l by exact P. reflexivity.
Qed.

Lemma cg_mulr : forall a b, cg (mul a b) (a * b).
Proof. intros a b. apply cg_mod. Qed.
Lemma cg_subr : forall a b, cg (sub a b) (a - b).
Proof. intros a b. apply cg_mod. Qed.
#[local] Instance cg_mul' : Proper (cg ==> cg ==> cg) mul.
Proof. intros a a' H b b' K. rewrite !cg_mulr, H, K. reflexivity. Qed.
#[local] Instance cg_sub' : Proper (cg ==> cg ==> cg) sub.
Proof. intros a a' H b b' K. rewrite !cg_subr, H, K. reflexivity. Qed.

(** what the test computes, in any representation *)
Lemma small_iff : forall X Y Z, small_order X Y Z = true <->
  cg (X * inv Z) 0 \/ cg (Y * inv Z) 0 \/ cg (Y * inv Z * sqrtm1) (X * inv Z) \/ cg (Y * inv Z * sqrtm1) (- X).
Proof.
  intros X Y Z. unfold small_order. rewrite !orb_true_iff, !iszero_iff.
  rewrite (cg_mulr X (inv Z)), !cg_subr, !cg_sub0, (cg_mulr (mul Y (inv Z))), (cg_mulr Y).
  change (0 - X) with (- X). tauto.
Qed.

(** On points just decoded (Z = 1) the test is: x = 0, y = 0 or x = +-sqrt(-1) y. *)
Theorem C106_decoded : forall x y, small_order x y 1 = true <->
  cg x 0 \/ cg y 0 \/ cg x (y * sqrtm1) \/ cg x (- (y * sqrtm1)).
Proof.
  intros x y. rewrite small_iff, inv_1, !Z.mul_1_r.
  assert (E : cg (y * sqrtm1) (- x) <-> cg x (- (y * sqrtm1))).
  { split; intros H.
    - assert (Q : x = 0 - (0 - x)) by ring. rewrite Q. change (0 - x) with (- x). rewrite <- H. reflexivity.
    - assert (Q : y * sqrtm1 = 0 - (0 - y * sqrtm1)) by ring. rewrite Q. change (0 - y * sqrtm1) with (- (y * sqrtm1)). rewrite <- H. reflexivity. }
  rewrite E. split; intros [H|[H|[H|H]]]; auto; right; right; left; now symmetry.
Qed.
Print Assumptions C106_decoded.

Lemma unit_1 : forall u, cg (1 * u) 1 -> cg u 1.
Proof. intros u H. now rewrite Z.mul_1_l in H. Qed.

Lemma dbl_x0 : forall x y x' y', cg x 0 -> cg (y * y) 1 -> dbl x y x' y' -> cg x' 0 /\ cg (y' * y') 1 /\ cg y' 1.
Proof.
  intros x y x' y' Hx Hy (u & v & Hu & Hv & Ex & Ey). rewrite Hx in Hv, Ex, Ey. rewrite Hy in Hv, Ey.
  assert (V : cg v 1). { apply unit_1. rewrite <- Hv at 2. assert (E : (1 - d8032 * (0 * 0) * 1) * v = 1 * v) by ring. now rewrite E. }
  assert (Y1 : cg y' 1) by (rewrite Ey, V; reflexivity).
  split; [rewrite Ex; assert (E : 2 * (0 * y) * u = 0) by ring; now rewrite E|]. split; [|exact Y1]. now rewrite Y1.
Qed.
Lemma dbl_y0 : forall x y x' y', cg y 0 -> cg (x * x) (-1) -> dbl x y x' y' -> cg x' 0 /\ cg (y' * y') 1.
Proof.
  intros x y x' y' Hy Hx (u & v & Hu & Hv & Ex & Ey). rewrite Hy in Hv, Ex, Ey. rewrite Hx in Hv, Ey.
  assert (V : cg v 1). { apply unit_1. rewrite <- Hv at 2. assert (E : (1 - d8032 * (-1) * (0 * 0)) * v = 1 * v) by ring. now rewrite E. }
  split; [rewrite Ex; assert (E : 2 * (x * 0) * u = 0) by ring; now rewrite E|]. rewrite Ey, V. reflexivity.
Qed.
Lemma dbl_diag : forall x y s x' y', on_curve x y -> cg (s * s) (-1) -> cg x (y * s) -> dbl x y x' y' ->
  cg y' 0 /\ cg (x' * x') (-1).
Proof.
  intros x y s x' y' Hc Hs Hx (u & v & Hu & Hv & Ex & Ey). unfold on_curve in Hc.
  rewrite <- Hc in Hu.
  assert (XX : cg (x * x) (- (y * y))).
  { rewrite Hx. assert (E : y * s * (y * s) = y * y * (s * s)) by ring. rewrite E, Hs. assert (E2 : y * y * -1 = - (y * y)) by ring. now rewrite E2. }
  rewrite XX in Hu. assert (E : (y * y - - (y * y)) * u = 2 * (y * y) * u) by ring. rewrite E in Hu.
  assert (X1 : cg x' s).
  { rewrite Ex, Hx. assert (E1 : 2 * (y * s * y) * u = s * (2 * (y * y) * u)) by ring. rewrite E1, Hu. now rewrite Z.mul_1_r. }
  split; [|rewrite X1; exact Hs].
  rewrite Ey, XX. assert (E1 : (y * y + - (y * y)) * v = 0) by ring. now rewrite E1.
Qed.

(** Every decoded point the test calls small has order dividing 8: whatever the
    results of three doublings, they end in the neutral element. *)
Theorem C106_sound : forall x y x2 y2 x4 y4 x8 y8,
  on_curve x y -> small_order x y 1 = true ->
  dbl x y x2 y2 -> dbl x2 y2 x4 y4 -> dbl x4 y4 x8 y8 -> cg x8 0 /\ cg y8 1.
Proof.
  intros x y x2 y2 x4 y4 x8 y8 Hc S D1 D2 D3.
  assert (T : forall a b a2 b2 a4 b4, cg a 0 -> cg (b * b) 1 -> dbl a b a2 b2 -> dbl a2 b2 a4 b4 -> cg a4 0 /\ cg (b4 * b4) 1 /\ cg b4 1).
  { intros a b a2 b2 a4 b4 A B E1 E2. destruct (dbl_x0 _ _ _ _ A B E1) as (A2 & B2 & _). exact (dbl_x0 _ _ _ _ A2 B2 E2). }
  assert (DG : forall s, cg (s * s) (-1) -> cg x (y * s) -> cg x8 0 /\ cg y8 1).
  { intros s Hs Hx. destruct (dbl_diag x y s x2 y2 Hc Hs Hx D1) as [A B].
    destruct (dbl_y0 _ _ _ _ A B D2) as [A4 B4]. destruct (dbl_x0 _ _ _ _ A4 B4 D3) as (A8 & _ & B8). auto. }
  apply C106_decoded in S. destruct S as [S|[S|[S|S]]].
  - assert (Y : cg (y * y) 1).
    { unfold on_curve in Hc. rewrite S in Hc. assert (E : y * y - 0 * 0 = y * y) by ring. rewrite E in Hc.
      assert (E2 : 1 + d8032 * (0 * 0) * (y * y) = 1) by ring. now rewrite E2 in Hc. }
    destruct (T _ _ _ _ _ _ S Y D1 D2) as (A & B & _). destruct (dbl_x0 _ _ _ _ A B D3) as (A8 & _ & B8). auto.
  - assert (X : cg (x * x) (-1)).
    { unfold on_curve in Hc. rewrite S in Hc. assert (E2 : 1 + d8032 * (x * x) * (0 * 0) = 1) by ring. rewrite E2 in Hc.
      assert (E : x * x = 0 - (0 * 0 - x * x)) by ring. rewrite E, Hc. reflexivity. }
    destruct (dbl_y0 _ _ _ _ S X D1) as [A B]. destruct (T _ _ _ _ _ _ A B D2 D3) as (A8 & _ & B8). auto.
  - apply (DG sqrtm1 sqrtm1_ok S).
  - apply (DG (- sqrtm1)); [cgc|]. rewrite S. assert (E : - (y * sqrtm1) = y * - sqrtm1) by ring. now rewrite E.
Qed.
Print Assumptions C106_sound.

(** ** the converse, given that p is prime *)
Lemma dbl_curve : forall x y x' y', on_curve x y -> dbl x y x' y' -> on_curve x' y'.
Proof.
  intros x y x' y' Hc (u & v & Hu & Hv & Ex & Ey). unfold on_curve in *.
  set (D := y * y - x * x) in *. set (S := (y * y + x * x) * (y * y + x * x)).
  assert (Hd : cg (d8032 * (x * x) * (y * y)) (D - 1)).
  { assert (E : d8032 * (x * x) * (y * y) = 1 + d8032 * (x * x) * (y * y) - 1) by ring. rewrite E, <- Hc. reflexivity. }
  rewrite <- Hc in Hu. rewrite Hd in Hv. assert (E2 : 1 - (D - 1) = 2 - D) by ring. rewrite E2 in Hv. clear E2.
  set (w := u * u * (v * v)).
  assert (A1 : cg (y' * y') (S * (D * D) * w)).
  { rewrite Ey. assert (E : S * (D * D) * w = S * (v * v) * ((D * u) * (D * u))) by (unfold w; ring). rewrite E, Hu.
    assert (E1 : (y * y + x * x) * v * ((y * y + x * x) * v) = S * (v * v) * (1 * 1)) by (unfold S; ring). rewrite E1. reflexivity. }
  assert (A2 : cg (x' * x') (4 * (x * x) * (y * y) * ((2 - D) * (2 - D)) * w)).
  { rewrite Ex. assert (E : 4 * (x * x) * (y * y) * ((2 - D) * (2 - D)) * w = 4 * (x * x) * (y * y) * (u * u) * (((2 - D) * v) * ((2 - D) * v))) by (unfold w; ring).
    rewrite E, Hv. assert (E1 : 2 * (x * y) * u * (2 * (x * y) * u) = 4 * (x * x) * (y * y) * (u * u) * (1 * 1)) by ring. rewrite E1. reflexivity. }
  assert (A3 : cg 1 (D * D * ((2 - D) * (2 - D)) * w)).
  { assert (E : D * D * ((2 - D) * (2 - D)) * w = (D * u) * (D * u) * (((2 - D) * v) * ((2 - D) * v))) by (unfold w; ring). rewrite E, Hu, Hv. reflexivity. }
  assert (A4 : cg (d8032 * (x' * x') * (y' * y')) (4 * (D - 1) * S * w)).
  { rewrite Ex, Ey. assert (E : d8032 * (2 * (x * y) * u * (2 * (x * y) * u)) * ((y * y + x * x) * v * ((y * y + x * x) * v)) =
      4 * (d8032 * (x * x) * (y * y)) * S * w) by (unfold S, w; ring). rewrite E, Hd. reflexivity. }
  rewrite A4, A1, A2. rewrite A3 at 1.
  assert (E : S * (D * D) * w - 4 * (x * x) * (y * y) * ((2 - D) * (2 - D)) * w = D * D * ((2 - D) * (2 - D)) * w + 4 * (D - 1) * S * w)
    by (unfold S, D; ring).
  rewrite E. reflexivity.
Qed.

Lemma cg_divide : forall a, cg a 0 <-> (p25519 | a).
Proof.
  intros a. rewrite cg_iff, Zmod_0_l. apply Z.mod_divide. intro H. discriminate H.
Qed.
Lemma cg_integral : prime p25519 -> forall a b, cg (a * b) 0 -> cg a 0 \/ cg b 0.
Proof. intros P a b H. rewrite !cg_divide in *. now apply prime_mult. Qed.
Lemma not_unit0 : forall a u, cg (a * u) 1 -> ~ cg u 0.
Proof. intros a u H K. rewrite K, Z.mul_0_r in H. revert H. apply ncg. vm_compute. reflexivity. Qed.

(** Every decoded point of order dividing 8 is found. *)
Lemma complete_prime : prime p25519 -> forall x y, on_curve x y -> order8 x y -> small_order x y 1 = true.
Proof.
  intros P x y Hc (x2 & y2 & x4 & y4 & x8 & y8 & D1 & D2 & D3 & E8 & F8).
  pose proof (dbl_curve _ _ _ _ Hc D1) as C2. pose proof (dbl_curve _ _ _ _ C2 D2) as C4.
  assert (XZ : forall a b a' b', dbl a b a' b' -> cg a' 0 -> cg a 0 \/ cg b 0).
  { intros a b a' b' (u & v & Hu & _ & Ex & _) H. rewrite Ex in H.
    destruct (cg_integral P _ _ H) as [K|K]; [|exfalso; exact (not_unit0 _ _ Hu K)].
    destruct (cg_integral P _ _ K) as [Q|Q]; [exfalso; revert Q; apply ncg; vm_compute; reflexivity|].
    exact (cg_integral P _ _ Q). }
  assert (YZ : forall a b a' b', dbl a b a' b' -> cg b' 0 -> cg (b * b + a * a) 0).
  { intros a b a' b' (u & v & _ & Hv & _ & Ey) H. rewrite Ey in H.
    destruct (cg_integral P _ _ H) as [K|K]; [exact K|exfalso; exact (not_unit0 _ _ Hv K)]. }
  apply C106_decoded.
  destruct (XZ _ _ _ _ D3 E8) as [X4|Y4].
  - destruct (XZ _ _ _ _ D2 X4) as [X2|Y2].
    + destruct (XZ _ _ _ _ D1 X2) as [X|Y]; auto.
    + pose proof (YZ _ _ _ _ D1 Y2) as Q. right. right.
      assert (Q' : cg ((x - y * sqrtm1) * (x + y * sqrtm1)) 0).
      { assert (E : (x - y * sqrtm1) * (x + y * sqrtm1) = x * x - y * y * (sqrtm1 * sqrtm1)) by ring.
        rewrite E, sqrtm1_ok. assert (E2 : x * x - y * y * -1 = y * y + x * x) by ring. rewrite E2. exact Q. }
      destruct (cg_integral P _ _ Q') as [K|K]; [left; now apply cg_sub0|right].
      apply cg_sub0. assert (E : x - - (y * sqrtm1) = x + y * sqrtm1) by ring. now rewrite E.
  - exfalso. unfold on_curve in C4. destruct D3 as (u & v & _ & Hv & _ & Ey).
    rewrite Y4 in C4, Hv, Ey. assert (E1 : (1 - d8032 * (x4 * x4) * (0 * 0)) * v = v) by ring. rewrite E1 in Hv.
    rewrite Hv in Ey. rewrite Ey in F8. assert (E2 : (0 * 0 + x4 * x4) * 1 = x4 * x4) by ring. rewrite E2 in F8.
    rewrite F8 in C4. assert (E3 : 1 + d8032 * 1 * (0 * 0) = 1) by ring. rewrite E3 in C4.
    revert C4. apply ncg. vm_compute. reflexivity.
Qed.
Theorem C106_complete : forall x y, on_curve x y -> order8 x y -> small_order x y 1 = true.
Proof. exact (complete_prime prime_p25519). Qed.
Print Assumptions C106_complete.

(** The neutral element, and every other point with x = 0 or y = 0, is
    recognised in every representation. *)
Theorem C106_axis : forall X Y Z, cg X 0 \/ cg Y 0 -> small_order X Y Z = true.
Proof.
  intros X Y Z H. apply small_iff. destruct H as [H|H]; [left|right; left]; rewrite H; reflexivity.
Qed.
Print Assumptions C106_axis.

(** So does the point with x = sqrt(-1) y. *)
Theorem C106_plus : forall X Y Z, cg X (Y * sqrtm1) -> small_order X Y Z = true.
Proof.
  intros X Y Z H. apply small_iff. right. right. left. rewrite H.
  assert (E : Y * inv Z * sqrtm1 = Y * sqrtm1 * inv Z) by ring. now rewrite E.
Qed.
Print Assumptions C106_plus.

(** ** the answer should depend on the point only, and it does not *)
Definition x8 : Z := 43496726750457979451437558183816721346016168361625936758514574428539776020131.
Definition y8 : Z := 2707385501144840649318225287225658788936804267575313519463743609750303402022.
Lemma x8_order : order8 x8 y8.
Proof.
  exists 38214883241950591754978413199355411911188925816896391856984770930832735035197, 0, 0, (-1), 0, 1.
  split; [|split; [|split; [|split; cgc]]].
  - exists 14605567898758333976436472294065860006225527002508430535767232852580782559382,
      26674512167797558143609440240117624190466112104203674130203660656625133424897. repeat apply conj; cgc.
  - exists 1, 1. repeat apply conj; cgc.
  - exists 1, 1. repeat apply conj; cgc.
Qed.

(** The full claim: [forall X Y Z x y, on_curve x y -> stands_for X Y Z x y ->
    small_order X Y Z = small_order x y 1].  It fails for a point of order 8,
    because the last comparison uses the projective X. *)
Theorem C106_representation_refuted : exists X Y Z x y,
  on_curve x y /\ order8 x y /\ stands_for X Y Z x y /\ small_order x y 1 = true /\ small_order X Y Z = false.
Proof.
  exists (- x8), (- y8), (-1), x8, y8. split; [cgc|]. split; [exact x8_order|].
  split; [split; [cgc|]; split; [cgc|]; exists (-1); cgc|].
  split; [apply C106_decoded; right; right; right; cgc|].
  apply not_true_iff_false. rewrite small_iff, inv_m1. intros [H|[H|[H|H]]]; revert H; apply ncg; vm_compute; reflexivity.
Qed.
Print Assumptions C106_representation_refuted.

Example C106_ex : on_curve x8 y8 /\ small_order x8 y8 1 = true /\ order8 x8 y8 /\
  on_curve 0 1 /\ on_curve 0 (-1) /\ on_curve sqrtm1 0 /\ small_order sqrtm1 0 1 = true /\
  small_order 15112221349535400772501151409588531511454012693041857206046113283949847762202
    46316835694926478169428394003475163141307993866256225615783033603165251855960 1 = false.
Proof.
  split; [cgc|]. split; [apply C106_decoded; right; right; right; cgc|]. split; [exact x8_order|].
  split; [cgc|]. split; [cgc|]. split; [cgc|]. split; [apply C106_axis; right; reflexivity|].
  apply not_true_iff_false. rewrite C106_decoded. intros [H|[H|[H|H]]]; revert H; apply ncg; vm_compute; reflexivity.
Qed.
