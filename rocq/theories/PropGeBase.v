(** * C112: multiplication of the base point by a scalar *)
From Coq Require Import ZArith Lia Bool List Zdiv Setoid Morphisms.
From Verif Require Import X25519Spec GeSmallModel PropSmallOrder GeDecodeModel PropGeDecode GeAddModel PropGeAdd GeAdd2Model PropGeAdd2
  GeScalarModel PropGeScalar GeBaseModel.
Import ListNotations.
Open Scope Z_scope.

#[local] Existing Instance cg_equiv.
#[local] Existing Instance cg_add.
#[local] Existing Instance cg_mul.
#[local] Existing Instance cg_sub.

(** the table entry q holds k times (x, y) *)
Definition holds (x y : Z) (q : precomp) (k : Z) : Prop :=
  exists x1 y1, times x y k x1 y1 /\ on_curve x1 y1 /\ entry q x1 y1.
(** what the comment in ge25519_cmov8_base says: base[i][j] = (j+1)*256^i*B *)
Definition table_of (x y : Z) (rows : list (list precomp)) : Prop := length rows = 32%nat /\
  forall i, (i < 32)%nat -> length (nth i rows []) = 8%nat /\
  forall j, (j < 8)%nat -> holds x y (nth j (nth i rows []) (Pre 0 0 0)) ((Z.of_nat j + 1) * 256 ^ Z.of_nat i).

Section Base.
Variables x y : Z.
Hypothesis C : on_curve x y.

Lemma holds_0 : holds x y precomp_0 0.
Proof.
  exists 0, 1. split; [constructor|]. split; [unfold on_curve; cgring|].
  unfold entry, precomp_0. cbn [yplusx yminusx xy2d]. repeat apply conj; cgring.
Qed.
Lemma holds_opp : forall q k, holds x y q k -> holds x y (Pre (yminusx q) (yplusx q) (sub 0 (xy2d q))) (- k).
Proof.
  intros q k (x1 & y1 & T & K & A & B & D). exists (- x1), y1. split; [constructor; exact T|].
  split; [apply curve_neg; exact K|]. unfold entry. cbn [yplusx yminusx xy2d]. repeat apply conj.
  - rewrite B. cgring.
  - rewrite A. cgring.
  - rewrite cg_subr, D. cgring.
Qed.
Lemma rep_entry : forall h q k l, rep x y h k -> holds x y q l -> rep x y (p1p1_to_p3 (add_precomp h q)) (k + l).
Proof.
  intros h q k l (x1 & y1 & T1 & K1 & E1) (x2 & y2 & T2 & K2 & E2).
  destruct (C109_closed _ _ _ _ K1 K2) as [(x3 & y3 & S) K]. exists x3, y3.
  split; [exact (times_sum _ _ _ _ _ _ _ _ _ _ T1 T2 S)|]. split; [exact (K _ _ S)|].
  exact (C110_add_precomp _ _ _ _ _ _ _ _ E1 E2 S).
Qed.

Definition row_ok (row : list precomp) (k : Z) : Prop := exists q1 q2 q3 q4 q5 q6 q7 q8,
  row = [q1; q2; q3; q4; q5; q6; q7; q8] /\ holds x y q1 (1 * k) /\ holds x y q2 (2 * k) /\ holds x y q3 (3 * k) /\
  holds x y q4 (4 * k) /\ holds x y q5 (5 * k) /\ holds x y q6 (6 * k) /\ holds x y q7 (7 * k) /\ holds x y q8 (8 * k).
Fixpoint rows_ok (rows : list (list precomp)) (k : Z) : Prop :=
  match rows with [] => True | row :: rows => row_ok row k /\ rows_ok rows (256 * k) end.

Lemma opp_mul : forall q a k, holds x y q (a * k) -> holds x y (Pre (yminusx q) (yplusx q) (sub 0 (xy2d q))) (- a * k).
Proof. intros q a k H. rewrite Z.mul_opp_l. apply holds_opp. exact H. Qed.

Lemma row_select : forall row k d, row_ok row k -> -8 <= d <= 8 -> holds x y (cmov8 row d) (d * k).
Proof.
  intros row k d (c1 & c2 & c3 & c4 & c5 & c6 & c7 & c8 & -> & H1 & H2 & H3 & H4 & H5 & H6 & H7 & H8) D.
  assert (K : d = 0 \/ d = 1 \/ d = 2 \/ d = 3 \/ d = 4 \/ d = 5 \/ d = 6 \/ d = 7 \/ d = 8 \/
    d = -1 \/ d = -2 \/ d = -3 \/ d = -4 \/ d = -5 \/ d = -6 \/ d = -7 \/ d = -8) by lia.
  repeat (destruct K as [-> | K]); [exact holds_0|assumption..| | | | | | | |subst d].
  - exact (opp_mul _ 1 _ H1).
  - exact (opp_mul _ 2 _ H2).
  - exact (opp_mul _ 3 _ H3).
  - exact (opp_mul _ 4 _ H4).
  - exact (opp_mul _ 5 _ H5).
  - exact (opp_mul _ 6 _ H6).
  - exact (opp_mul _ 7 _ H7).
  - exact (opp_mul _ 8 _ H8).
Qed.

Fixpoint val256 (l : list Z) : Z := match l with [] => 0 | d :: l => d + 256 * val256 l end.

Lemma base_rep : forall rows k e h m, rows_ok rows k -> length e = length rows -> Forall (fun d => -8 <= d <= 8) e ->
  rep x y h m -> rep x y (base_loop rows e h) (m + k * val256 e).
Proof.
  induction rows as [|row rows IH]; intros k [|d e] h m G L F H; try discriminate.
  - cbn [base_loop val256]. eapply rep_eq; [|exact H]. lia.
  - destruct G as [G1 G2]. inversion F as [|? ? D F']; subst. cbn [base_loop val256].
    eapply rep_eq; [|apply (IH (256 * k) e _ (m + d * k)); [exact G2|cbn in L; lia|exact F'|]].
    + ring.
    + apply rep_entry; [exact H|apply row_select; assumption].
Qed.

Lemma rows_of : forall rows k, (forall i, (i < length rows)%nat -> length (nth i rows []) = 8%nat /\
  forall j, (j < 8)%nat -> holds x y (nth j (nth i rows []) (Pre 0 0 0)) ((Z.of_nat j + 1) * (k * 256 ^ Z.of_nat i))) -> rows_ok rows k.
Proof.
  induction rows as [|row rows IH]; intros k H; [exact I|]. split.
  - destruct (H 0%nat ltac:(cbn; lia)) as [L J]. cbn [nth] in L, J.
    destruct row as [|q1 [|q2 [|q3 [|q4 [|q5 [|q6 [|q7 [|q8 [|]]]]]]]]]; try discriminate.
    change (256 ^ Z.of_nat 0) with 1 in J. rewrite Z.mul_1_r in J.
    exists q1, q2, q3, q4, q5, q6, q7, q8. split; [reflexivity|].
    exact (conj (J 0%nat ltac:(lia)) (conj (J 1%nat ltac:(lia)) (conj (J 2%nat ltac:(lia)) (conj (J 3%nat ltac:(lia))
      (conj (J 4%nat ltac:(lia)) (conj (J 5%nat ltac:(lia)) (conj (J 6%nat ltac:(lia)) (J 7%nat ltac:(lia))))))))).
  - apply IH. intros i L. destruct (H (S i) ltac:(cbn; lia)) as [L8 J]. cbn [nth] in L8, J. split; [exact L8|].
    intros j Hj. specialize (J j Hj). rewrite Nat2Z.inj_succ, Z.pow_succ_r in J by lia.
    replace (256 * k * 256 ^ Z.of_nat i) with (k * (256 * 256 ^ Z.of_nat i)) by ring. exact J.
Qed.
End Base.

Lemma split_val : forall n l, length l = (2 * n)%nat ->
  16 * val256 (odds l) + val256 (evens l) = val16 l /\ length (odds l) = n /\ length (evens l) = n.
Proof.
  induction n as [|n IH]; intros [|a [|b l]] H; cbn [length] in H; try lia; [repeat split|].
  destruct (IH l ltac:(lia)) as (V & A & B). cbn [odds evens val256 val16 length]. repeat apply conj; lia.
Qed.
Lemma Forall_split : forall P n l, length l = (2 * n)%nat -> Forall P l -> Forall P (odds l) /\ Forall P (evens l).
Proof.
  intros P. induction n as [|n IH]; intros [|a [|b l]] H F; cbn [length] in H; try lia; [split; constructor|].
  inversion F as [|? ? A F']; subst. inversion F' as [|? ? B F'']; subst. destruct (IH l ltac:(lia) F'') as [X Y].
  split; constructor; assumption.
Qed.
Lemma nibbles_length : forall a, length (nibbles a) = (2 * length a)%nat.
Proof. induction a as [|b a IH]; cbn [nibbles length]; [reflexivity|]. rewrite IH. lia. Qed.
Lemma recode_length : forall l c, length (recode l c) = length l.
Proof.
  induction l as [|d l IH]; intros c; [reflexivity|]. destruct l as [|d' l]; [reflexivity|].
  rewrite recode_cons. cbn [length]. rewrite IH. reflexivity.
Qed.

(** ge25519_scalarmult_base: a B, for all scalars below 2^255, if the table is
    that of B *)
Theorem C112_base_partial : forall rows a x y, on_curve x y -> table_of x y rows ->
  length a = 32%nat -> Forall (fun b => 0 <= b < 256) a -> nth 31 a 0 <= 127 ->
  exists x' y', times x y (le a) x' y' /\ on_curve x' y' /\ ext (scalarmult_base rows a) x' y'.
Proof.
  intros rows a x y C [LR TR] N F T. destruct (C111_digits a N F T) as (V & D & _). rewrite <- V.
  assert (L : length (recode (nibbles a) 0) = (2 * 32)%nat) by (rewrite recode_length, nibbles_length, N; reflexivity).
  destruct (split_val 32 _ L) as (S & LO & LE). destruct (Forall_split _ 32 _ L D) as [FO FE].
  assert (G : rows_ok x y rows 1).
  { apply rows_of. rewrite LR. intros i Hi. destruct (TR i Hi) as [L8 J]. split; [exact L8|].
    intros j Hj. rewrite Z.mul_1_l. exact (J j Hj). }
  unfold scalarmult_base. generalize dependent (recode (nibbles a) 0). intros e V D L S LO LE FO FE.
  assert (R0 : rep x y (Pt 0 1 1 0) 0).
  { exists 0, 1. split; [constructor|]. split; [unfold on_curve; cgring|].
    unfold ext, stands_for. cbn [pX pY pZ pT]. repeat apply conj; try cgring. exists 1. reflexivity. }
  pose proof (base_rep x y rows 1 (odds e) _ _ G ltac:(congruence) FO R0) as R1.
  apply rep_dbl, rep_dbl2, rep_dbl2, rep_dbl2 in R1.
  pose proof (base_rep x y rows 1 (evens e) _ _ G ltac:(congruence) FE R1) as R2.
  eapply rep_eq; [|exact R2]. lia.
Qed.
Print Assumptions C112_base_partial.

(** every point of the curve has every multiple, and such a table *)
Theorem C112_multiples : forall x y, on_curve x y -> forall k, exists x1 y1, times x y k x1 y1 /\ on_curve x1 y1.
Proof.
  intros x y C.
  assert (P : forall n, exists x1 y1, times x y (Z.of_nat n) x1 y1 /\ on_curve x1 y1).
  { induction n as [|n (x1 & y1 & T & K)].
    - exists 0, 1. split; [constructor|unfold on_curve; cgring].
    - destruct (C109_closed _ _ _ _ K C) as [(x3 & y3 & S) K3]. exists x3, y3. split; [|exact (K3 _ _ S)].
      rewrite Nat2Z.inj_succ. exact (times_sum _ _ _ _ _ _ _ _ _ _ T (times_1 x y) S). }
  intros k. destruct (Z.leb_spec 0 k) as [H|H].
  - destruct (P (Z.to_nat k)) as (x1 & y1 & T & K). rewrite Z2Nat.id in T by lia. exists x1, y1. split; assumption.
  - destruct (P (Z.to_nat (- k))) as (x1 & y1 & T & K). rewrite Z2Nat.id in T by lia. exists (- x1), y1.
    split; [rewrite <- (Z.opp_involutive k); constructor; exact T|apply curve_neg; exact K].
Qed.
Print Assumptions C112_multiples.

Lemma list_of : forall (A : Type) (d : A) (P : nat -> A -> Prop) n, (forall i, exists a, P i a) ->
  exists l, length l = n /\ forall i, (i < n)%nat -> P i (nth i l d).
Proof.
  intros A d P n H. induction n as [|n (l & L & K)]; [exists []; split; [reflexivity|intros i Hi; lia]|].
  destruct (H n) as [a Ha]. exists (l ++ [a]). split; [rewrite app_length, L; cbn; lia|].
  intros i Hi. destruct (Nat.eq_dec i n) as [->|N].
  - rewrite app_nth2 by lia. rewrite L, Nat.sub_diag. exact Ha.
  - rewrite app_nth1 by lia. apply K. lia.
Qed.

Example C112_ex : exists rows, table_of base_x base_y rows /\
  exists x' y', times base_x base_y (9 + 127 * 256 ^ 31) x' y' /\ ext (scalarmult_base rows (9 :: repeat 0 30 ++ [127])) x' y'.
Proof.
  destruct C109_ex as (C & _).
  assert (Q : forall k, exists q, holds base_x base_y q k).
  { intros k. destruct (C112_multiples _ _ C k) as (x1 & y1 & T & K).
    exists (Pre (y1 + x1) (y1 - x1) (2 * d8032 * x1 * y1)), x1, y1. split; [exact T|]. split; [exact K|].
    repeat apply conj; reflexivity. }
  assert (R : exists rows, table_of base_x base_y rows).
  { destruct (list_of (list precomp) [] (fun i row => length row = 8%nat /\ forall j, (j < 8)%nat ->
      holds base_x base_y (nth j row (Pre 0 0 0)) ((Z.of_nat j + 1) * 256 ^ Z.of_nat i)) 32) as (rows & L & K).
    - intros i. apply (list_of precomp (Pre 0 0 0) (fun j q => holds base_x base_y q ((Z.of_nat j + 1) * 256 ^ Z.of_nat i)) 8).
      intros j. apply Q.
    - exists rows. split; assumption. }
  destruct R as [rows R]. exists rows. split; [exact R|].
  destruct (C112_base_partial rows (9 :: repeat 0 30 ++ [127]) _ _ C R eq_refl ltac:(cbn; repeat constructor; lia) ltac:(cbn; lia))
    as (x' & y' & T & _ & H).
  exists x', y'. split; [exact T|exact H].
Qed.
