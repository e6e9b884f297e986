(** * C110: additions with table entries, repeated doubling, clearing the cofactor *)
From Coq Require Import ZArith Lia Bool List Zdiv Setoid Morphisms.
From Verif Require Import X25519Spec GeSmallModel PropSmallOrder GeDecodeModel PropGeDecode GeAddModel PropGeAdd GeAdd2Model.
Open Scope Z_scope.

#[local] Existing Instance cg_equiv.
#[local] Existing Instance cg_add.
#[local] Existing Instance cg_mul.
#[local] Existing Instance cg_sub.

(** a table entry for the affine point (x, y): y + x, y - x, 2dxy *)
Definition entry (q : precomp) (x y : Z) : Prop :=
  cg (yplusx q) (y + x) /\ cg (yminusx q) (y - x) /\ cg (xy2d q) (2 * d8032 * x * y).
(** (x', y') is (x, y) doubled n times *)
Inductive doubled : nat -> Z -> Z -> Z -> Z -> Prop :=
| doubled_0 : forall x y, doubled 0 x y x y
| doubled_S : forall n x y x1 y1 x2 y2, sum x y x y x1 y1 -> doubled n x1 y1 x2 y2 -> doubled (S n) x y x2 y2.

Theorem C110_add_precomp : forall p q x1 y1 x2 y2 x3 y3, ext p x1 y1 -> entry q x2 y2 ->
  sum x1 y1 x2 y2 x3 y3 -> ext (p1p1_to_p3 (add_precomp p q)) x3 y3.
Proof.
  intros p q x1 y1 x2 y2 x3 y3 E1 (Q1 & Q2 & Q3) (u & v & U & V & Ex & Ey).
  pose proof (ext_T _ _ _ E1) as T1. destruct E1 as [(HX1 & HY1 & w1 & W1) _].
  apply (finish _ (2 * pZ p) ((p25519 + 1) / 2 * w1) (x1 * y2 + x2 * y1) (y1 * y2 + x1 * x2)
    (d8032 * x1 * x2 * y1 * y2) u v); try assumption.
  - pose proof two_unit as H2. generalize dependent ((p25519 + 1) / 2). intros h H2.
    transitivity ((2 * h) * (pZ p * w1)); [cgring|]. rewrite H2, W1. reflexivity.
  - unfold add_precomp. cbn [pX pY pZ pT].
    rewrite !cg_subr, !cg_mulr, !cg_addr, !cg_subr, HX1, HY1, Q1, Q2. cgring.
  - unfold add_precomp. cbn [pX pY pZ pT].
    rewrite !cg_addr, !cg_mulr, !cg_addr, !cg_subr, HX1, HY1, Q1, Q2. cgring.
  - unfold add_precomp. cbn [pX pY pZ pT]. rewrite !cg_addr, !cg_mulr, T1, Q3. cgring.
  - unfold add_precomp. cbn [pX pY pZ pT]. rewrite !cg_subr, !cg_addr, !cg_mulr, T1, Q3. cgring.
Qed.
Print Assumptions C110_add_precomp.

Theorem C110_sub_precomp : forall p q x1 y1 x2 y2 x3 y3, ext p x1 y1 -> entry q x2 y2 ->
  sum x1 y1 (- x2) y2 x3 y3 -> ext (p1p1_to_p3 (sub_precomp p q)) x3 y3.
Proof.
  intros p q x1 y1 x2 y2 x3 y3 E1 (Q1 & Q2 & Q3) (u & v & U & V & Ex & Ey).
  pose proof (ext_T _ _ _ E1) as T1. destruct E1 as [(HX1 & HY1 & w1 & W1) _].
  apply (finish _ (2 * pZ p) ((p25519 + 1) / 2 * w1) (x1 * y2 + - x2 * y1) (y1 * y2 + x1 * - x2)
    (d8032 * x1 * - x2 * y1 * y2) u v); try assumption.
  - pose proof two_unit as H2. generalize dependent ((p25519 + 1) / 2). intros h H2.
    transitivity ((2 * h) * (pZ p * w1)); [cgring|]. rewrite H2, W1. reflexivity.
  - unfold sub_precomp. cbn [pX pY pZ pT].
    rewrite !cg_subr, !cg_mulr, !cg_addr, !cg_subr, HX1, HY1, Q1, Q2. cgring.
  - unfold sub_precomp. cbn [pX pY pZ pT].
    rewrite !cg_addr, !cg_mulr, !cg_addr, !cg_subr, HX1, HY1, Q1, Q2. cgring.
  - unfold sub_precomp. cbn [pX pY pZ pT]. rewrite !cg_subr, !cg_addr, !cg_mulr, T1, Q3. cgring.
  - unfold sub_precomp. cbn [pX pY pZ pT]. rewrite !cg_addr, !cg_mulr, T1, Q3. cgring.
Qed.
Print Assumptions C110_sub_precomp.

(** doubling needs X, Y, Z only *)
Lemma dbl_xyz : forall X Y Z x y x3 y3, on_curve x y -> stands_for X Y Z x y -> sum x y x y x3 y3 ->
  ext (p1p1_to_p3 (p2_dbl X Y Z)) x3 y3.
Proof.
  intros X Y Z x y x3 y3 C (HX & HY & w & W) S.
  change (p2_dbl X Y Z) with (p3_dbl (Pt X Y Z (X * Y * w))).
  apply (C109_dbl _ x y); [exact C| |exact S].
  split; cbn [pX pY pZ pT].
  - repeat apply conj; [exact HX|exact HY|exists w; exact W].
  - transitivity (X * Y * (Z * w)); [cgring|]. rewrite W. cgring.
Qed.

Lemma loop_ok : forall n p2 r0 x y x' y', on_curve x y -> stands_for (pX p2) (pY p2) (pZ p2) x y ->
  doubled (S n) x y x' y' -> ext (p1p1_to_p3 (dbl_loop (S n) p2 r0)) x' y' /\ on_curve x' y'.
Proof.
  induction n as [|n IH]; intros p2 r0 x y x' y' C H D; inversion D as [|? ? ? x1 y1 ? ? S D']; subst.
  - inversion D'; subst. cbn [dbl_loop]. split.
    + apply (dbl_xyz _ _ _ x y); assumption.
    + exact (proj2 (C109_closed _ _ _ _ C C) _ _ S).
  - change (dbl_loop (Datatypes.S (Datatypes.S n)) p2 r0) with
      (dbl_loop (Datatypes.S n) (p1p1_to_p2 (p2_dbl (pX p2) (pY p2) (pZ p2))) (p2_dbl (pX p2) (pY p2) (pZ p2))).
    apply (IH _ _ x1 y1); [exact (proj2 (C109_closed _ _ _ _ C C) _ _ S)| |exact D'].
    exact (proj1 (dbl_xyz _ _ _ x y x1 y1 C H S)).
Qed.

Theorem C110_doubled : forall n x y, on_curve x y ->
  (exists x' y', doubled n x y x' y') /\ forall x' y', doubled n x y x' y' -> on_curve x' y'.
Proof.
  induction n as [|n IH]; intros x y C.
  - split; [exists x, y; constructor|]. intros x' y' D. inversion D; subst. exact C.
  - destruct (C109_closed _ _ _ _ C C) as [(x1 & y1 & S) K]. split.
    + destruct (IH x1 y1 (K _ _ S)) as [(x' & y' & D) _]. exists x', y'. exact (doubled_S _ _ _ _ _ _ _ S D).
    + intros x' y' D. inversion D as [|? ? ? x2 y2 ? ? S' D']; subst. exact (proj2 (IH x2 y2 (K _ _ S')) _ _ D').
Qed.
Print Assumptions C110_doubled.

(** ge25519_p3_dbladd: 2^n r + q, for n > 0 *)
Theorem C110_dbladd : forall n r q x y x1 y1 x2 y2 x3 y3, (0 < n)%nat -> on_curve x y -> ext r x y -> ext q x2 y2 ->
  doubled n x y x1 y1 -> sum x1 y1 x2 y2 x3 y3 -> ext (p3_dbladd r n q) x3 y3.
Proof.
  intros n r q x y x1 y1 x2 y2 x3 y3 N C R Q D S. destruct n as [|n]; [lia|]. unfold p3_dbladd.
  apply (C109_add _ _ x1 y1 x2 y2); [|exact Q|exact S].
  apply (loop_ok n _ _ x y); [exact C|exact (proj1 R)|exact D].
Qed.
Print Assumptions C110_dbladd.

(** for n = 0 it does not yield r + q, though its comment promises r*(2^n)+q:
    the result is (0, 0, 0, 0), not a point *)
Theorem C110_dbladd_0_refuted : exists r q x y x3 y3, on_curve x y /\ ext r x y /\ ext q x y /\
  sum x y x y x3 y3 /\ p3_dbladd r 0 q = Pt 0 0 0 0 /\ ~ ext (p3_dbladd r 0 q) x3 y3.
Proof.
  exists (Pt 0 1 1 0), (Pt 0 1 1 0), 0, 1, 0, 1.
  assert (E : p3_dbladd (Pt 0 1 1 0) 0 (Pt 0 1 1 0) = Pt 0 0 0 0) by (vm_compute; reflexivity).
  assert (X : ext (Pt 0 1 1 0) 0 1).
  { unfold ext, stands_for. cbn [pX pY pZ pT]. repeat apply conj; try reflexivity. exists 1. reflexivity. }
  split; [unfold on_curve; cgring|]. split; [exact X|]. split; [exact X|].
  split; [exists 1, 1; repeat apply conj; cgring|]. split; [exact E|].
  rewrite E. intros [(_ & _ & w & W) _]. cbn [pZ] in W. revert W. change (0 * w) with 0. apply ncg. vm_compute. reflexivity.
Qed.
Print Assumptions C110_dbladd_0_refuted.

(** ge25519_clear_cofactor: 8 p *)
Theorem C110_cofactor : forall p x y x' y', on_curve x y -> stands_for (pX p) (pY p) (pZ p) x y ->
  doubled 3 x y x' y' -> ext (clear_cofactor p) x' y' /\ on_curve x' y'.
Proof. intros p x y x' y' C H D. exact (loop_ok 2 p (Pt 0 0 0 0) x y x' y' C H D). Qed.
Print Assumptions C110_cofactor.

Example C110_ex : on_curve base_x base_y /\
  entry (Pre (base_y + base_x) (base_y - base_x) (2 * d8032 * base_x * base_y)) base_x base_y /\
  exists x' y', doubled 3 base_x base_y x' y' /\ on_curve x' y' /\
    ext (clear_cofactor (Pt base_x base_y 1 (base_x * base_y))) x' y'.
Proof.
  destruct C109_ex as (C & E & _). split; [exact C|]. split; [repeat apply conj; reflexivity|].
  destruct (C110_doubled 3 _ _ C) as [(x' & y' & D) K]. exists x', y'. split; [exact D|]. split; [exact (K _ _ D)|].
  exact (proj1 (C110_cofactor _ _ _ _ _ C (proj1 E) D)).
Qed.
