(** * C111: multiplication of an Ed25519 point by a scalar *)
From Coq Require Import ZArith Lia Bool List Zdiv Setoid Morphisms.
From Verif Require Import X25519Spec GeSmallModel PropSmallOrder GeDecodeModel PropGeDecode GeAddModel PropGeAdd GeAdd2Model PropGeAdd2
  GeScalarModel.
Import ListNotations.
Open Scope Z_scope.

#[local] Existing Instance cg_equiv.
#[local] Existing Instance cg_add.
#[local] Existing Instance cg_mul.
#[local] Existing Instance cg_sub.

(** (x', y') is k times (x, y): it comes from (x, y) and the neutral element
    by sums and opposites whose coefficients make k *)
Inductive times (x y : Z) : Z -> Z -> Z -> Prop :=
| times_0 : times x y 0 0 1
| times_1 : times x y 1 x y
| times_opp : forall k x1 y1, times x y k x1 y1 -> times x y (- k) (- x1) y1
| times_sum : forall k l x1 y1 x2 y2 x3 y3, times x y k x1 y1 -> times x y l x2 y2 ->
    sum x1 y1 x2 y2 x3 y3 -> times x y (k + l) x3 y3.

(** ** Signed digits *)
Fixpoint val16 (l : list Z) : Z := match l with [] => 0 | d :: l => d + 16 * val16 l end.

Lemma sc_id : forall z, -128 <= z < 128 -> sc z = z.
Proof. intros z H. unfold sc. rewrite Z.mod_small by lia. lia. Qed.

Lemma shiftr4 : forall z, Z.shiftr z 4 = z / 16.
Proof. intros z. rewrite Z.shiftr_div_pow2 by lia. reflexivity. Qed.
Lemma land15 : forall z, Z.land z 15 = z mod 16.
Proof. intros z. change 15 with (Z.ones 4). rewrite Z.land_ones by lia. reflexivity. Qed.

Lemma nibbles_ok : forall a, Forall (fun b => 0 <= b < 256) a ->
  val16 (nibbles a) = le a /\ Forall (fun d => 0 <= d <= 15) (nibbles a).
Proof.
  induction a as [|b a IH]; intros F; [split; [reflexivity|constructor]|].
  inversion F as [|? ? B F']; subst. destruct (IH F') as [V N]. cbn [nibbles val16 le].
  rewrite Z.shiftr_0_r, shiftr4, !land15.
  pose proof (Z.mod_pos_bound b 16 ltac:(lia)). pose proof (Z.mod_pos_bound (b / 16) 16 ltac:(lia)).
  rewrite !sc_id by lia. split.
  - rewrite V. assert (b / 16 < 16) by (apply Z.div_lt_upper_bound; lia).
    assert (0 <= b / 16) by (apply Z.div_pos; lia).
    rewrite (Z.mod_small (b / 16) 16) by lia. pose proof (Z.div_mod b 16 ltac:(lia)). lia.
  - repeat constructor; try lia; assumption.
Qed.

Lemma recode_cons : forall d d' l c, recode (d :: d' :: l) c =
  sc (sc (d + c) - sc (sc (Z.shiftr (sc (sc (d + c) + 8)) 4) * 16)) :: recode (d' :: l) (sc (Z.shiftr (sc (sc (d + c) + 8)) 4)).
Proof. reflexivity. Qed.
Lemma recode_ok : forall l c, l <> [] -> Forall (fun d => 0 <= d <= 15) l -> last l 0 <= 7 -> 0 <= c <= 1 ->
  val16 (recode l c) = val16 l + c /\ Forall (fun d => -8 <= d <= 8) (recode l c) /\
  Forall (fun d => -8 <= d <= 7) (removelast (recode l c)).
Proof.
  induction l as [|d l IH]; intros c N F L C; [congruence|].
  inversion F as [|? ? D F']; subst. destruct l as [|d' l].
  - cbn [last] in L. cbn [recode val16]. rewrite sc_id by lia. split; [lia|]. split; [repeat constructor; lia|constructor].
  - rewrite recode_cons. change (last (d :: d' :: l) 0) with (last (d' :: l) 0) in L.
    rewrite (sc_id (d + c)) by lia. rewrite (sc_id (d + c + 8)) by lia. rewrite shiftr4.
    pose proof (Z.div_mod (d + c + 8) 16 ltac:(lia)) as E. pose proof (Z.mod_pos_bound (d + c + 8) 16 ltac:(lia)) as M.
    set (q := (d + c + 8) / 16) in *. assert (Q : 0 <= q <= 1) by lia.
    rewrite (sc_id q) by lia. rewrite (sc_id (q * 16)) by lia. rewrite (sc_id (d + c - q * 16)) by lia.
    destruct (IH q ltac:(congruence) F' L Q) as (V & G & G7).
    repeat apply conj.
    + change (val16 ((d + c - q * 16) :: recode (d' :: l) q)) with ((d + c - q * 16) + 16 * val16 (recode (d' :: l) q)).
      change (val16 (d :: d' :: l)) with (d + 16 * val16 (d' :: l)). rewrite V. lia.
    + constructor; [lia|exact G].
    + assert (NE : recode (d' :: l) q <> []) by (destruct l; cbn [recode]; congruence).
      destruct (recode (d' :: l) q) as [|z r]; [congruence|]. constructor; [lia|exact G7].
Qed.

Lemma nibbles_last : forall a, Forall (fun b => 0 <= b < 256) a -> last a 0 <= 127 -> last (nibbles a) 0 <= 7.
Proof.
  induction a as [|b a IH]; intros F L; [cbn; lia|].
  inversion F as [|? ? B F']; subst. destruct a as [|b' a].
  - cbn [last] in L. cbn [nibbles last]. rewrite shiftr4, land15.
    assert (0 <= b / 16) by (apply Z.div_pos; lia). assert (b / 16 < 8) by (apply Z.div_lt_upper_bound; lia).
    rewrite Z.mod_small, sc_id by lia. lia.
  - specialize (IH F' L). cbn [nibbles] in *. exact IH.
Qed.

(** the digits of _ge25519_scalarmult and ge25519_scalarmult_base: between -8
    and 7, the last between -8 and 8, and of the right value, without wrap-around of a signed char *)
Theorem C111_digits : forall a, length a = 32%nat -> Forall (fun b => 0 <= b < 256) a -> nth 31 a 0 <= 127 ->
  val16 (recode (nibbles a) 0) = le a /\ Forall (fun d => -8 <= d <= 8) (recode (nibbles a) 0) /\
  Forall (fun d => -8 <= d <= 7) (removelast (recode (nibbles a) 0)).
Proof.
  intros a N F T. destruct (nibbles_ok a F) as [V D]. rewrite <- V.
  replace (val16 (nibbles a)) with (val16 (nibbles a) + 0) by lia.
  apply recode_ok; [destruct a; [discriminate|cbn; congruence]|exact D| |lia].
  apply nibbles_last; [exact F|].
  assert (K : forall n (l : list Z), length l = S n -> last l 0 = nth n l 0).
  { induction n as [|n IH]; intros [|z [|z' l]] H; try discriminate; [reflexivity|].
    change (last (z' :: l) 0 = nth n (z' :: l) 0). apply IH. cbn in *. lia. }
  rewrite (K 31%nat a N). exact T.
Qed.
Print Assumptions C111_digits.

(** ** equal, negative and babs yield exactly 0 or 1, and the absolute value,
    for all bytes: a masking fe25519_cmov needs this *)
Theorem C111_equal : forall b c, 0 <= b < 256 -> 0 <= c < 256 -> equal8 b c = if b =? c then 1 else 0.
Proof.
  intros b c B D. unfold equal8. destruct (Z.eqb_spec b c) as [->|N].
  - rewrite Z.lxor_nilpotent. reflexivity.
  - assert (P : 0 <= Z.lxor b c) by (apply Z.lxor_nonneg; lia).
    assert (Q : Z.lxor b c <> 0) by (intros K; apply Z.lxor_eq in K; contradiction).
    assert (U : Z.lxor b c < 2 ^ 8).
    { apply Z.log2_lt_pow2; [lia|]. eapply Z.le_lt_trans; [apply Z.log2_lxor; lia|].
      apply Z.max_lub_lt.
      - eapply Z.le_lt_trans; [apply (Z.log2_le_mono b 255); lia|reflexivity].
      - eapply Z.le_lt_trans; [apply (Z.log2_le_mono c 255); lia|reflexivity]. }
    change (2 ^ 8) with 256 in U. change (2 ^ 32) with 4294967296. rewrite Z.mod_small by lia.
    rewrite Z.shiftr_div_pow2 by lia. apply Z.div_small. change (2 ^ 31) with 2147483648. lia.
Qed.
Print Assumptions C111_equal.
Theorem C111_negative : forall b, -128 <= b < 128 -> negative8 b = (if b <? 0 then 1 else 0) /\ babs b = Z.abs b.
Proof.
  intros b B.
  assert (N : negative8 b = if b <? 0 then 1 else 0).
  { unfold negative8. rewrite Z.shiftr_div_pow2 by lia. destruct (Z.ltb_spec b 0) as [K|K].
    - replace (b mod 2 ^ 64) with (b + 2 ^ 64).
      + symmetry. apply (Z.div_unique_pos _ _ 1 (b + 2 ^ 63)); lia.
      + apply (Z.mod_unique_pos _ _ (-1)); lia.
    - rewrite Z.mod_small by lia. apply Z.div_small. lia. }
  split; [exact N|]. unfold babs. rewrite N. destruct (Z.ltb_spec b 0) as [K|K].
  - change (- (1)) with (-1). rewrite Z.land_m1_l, Z.mod_small by lia. lia.
  - change (- 0) with 0. rewrite Z.land_0_l, Z.mod_small by lia. lia.
Qed.
Print Assumptions C111_negative.

(** ** Cached points *)
Definition cach (c : cached) (x y : Z) : Prop :=
  cg (YplusX c) ((y + x) * cZ c) /\ cg (YminusX c) ((y - x) * cZ c) /\ cg (T2d c) (2 * d8032 * x * y * cZ c) /\
  exists w, cg (cZ c * w) 1.

Lemma cach_of : forall p x y, ext p x y -> cach (p3_to_cached p) x y.
Proof.
  intros p x y E. pose proof (ext_T _ _ _ E) as T. destruct E as [(HX & HY & W) _].
  unfold cach, p3_to_cached. cbn [YplusX YminusX cZ T2d]. repeat apply conj.
  - rewrite cg_addr, HX, HY. cgring.
  - rewrite cg_subr, HX, HY. cgring.
  - rewrite cg_mulr, T, d2_ok. cgring.
  - exact W.
Qed.
Lemma cach_0 : cach cached_0 0 1.
Proof. unfold cach, cached_0. cbn [YplusX YminusX cZ T2d]. repeat apply conj; try cgring. exists 1. reflexivity. Qed.
Lemma cach_opp : forall c x y, cach c x y -> cach (Ca (YminusX c) (YplusX c) (cZ c) (sub 0 (T2d c))) (- x) y.
Proof.
  intros c x y (A & B & T & W). unfold cach. cbn [YplusX YminusX cZ T2d]. repeat apply conj.
  - rewrite B. cgring.
  - rewrite A. cgring.
  - rewrite cg_subr, T. cgring.
  - exact W.
Qed.
Lemma add_ok : forall p c x1 y1 x2 y2 x3 y3, ext p x1 y1 -> cach c x2 y2 -> sum x1 y1 x2 y2 x3 y3 ->
  ext (p1p1_to_p3 (add_cached p c)) x3 y3.
Proof.
  intros p c x1 y1 x2 y2 x3 y3 E1 (A & B & T & w2 & W2) (u & v & U & V & Ex & Ey).
  pose proof (ext_T _ _ _ E1) as T1. destruct E1 as [(HX1 & HY1 & w1 & W1) _].
  apply (finish _ (2 * (pZ p * cZ c)) ((p25519 + 1) / 2 * (w1 * w2)) (x1 * y2 + x2 * y1) (y1 * y2 + x1 * x2)
    (d8032 * x1 * x2 * y1 * y2) u v); try assumption.
  - pose proof two_unit as H2. generalize dependent ((p25519 + 1) / 2). intros h H2.
    transitivity ((2 * h) * ((pZ p * w1) * (cZ c * w2))); [cgring|]. rewrite H2, W1, W2. reflexivity.
  - unfold add_cached. cbn [pX pY pZ pT]. rewrite !cg_subr, !cg_mulr, !cg_addr, !cg_subr, HX1, HY1, A, B. cgring.
  - unfold add_cached. cbn [pX pY pZ pT]. rewrite !cg_addr, !cg_mulr, !cg_addr, !cg_subr, HX1, HY1, A, B. cgring.
  - unfold add_cached. cbn [pX pY pZ pT]. rewrite !cg_addr, !cg_mulr, T1, T. cgring.
  - unfold add_cached. cbn [pX pY pZ pT]. rewrite !cg_subr, !cg_addr, !cg_mulr, T1, T. cgring.
Qed.

(** ** Multiples *)
Section Mult.
Variables x y : Z.
Hypothesis C : on_curve x y.

Definition rep (h : pt) (k : Z) : Prop := exists x1 y1, times x y k x1 y1 /\ on_curve x1 y1 /\ ext h x1 y1.
Definition crep (c : cached) (k : Z) : Prop := exists x1 y1, times x y k x1 y1 /\ on_curve x1 y1 /\ cach c x1 y1.

Lemma rep_eq : forall h k l, k = l -> rep h k -> rep h l. Proof. intros h k l ->. exact (fun H => H). Qed.
Lemma crep_of : forall h k, rep h k -> crep (p3_to_cached h) k.
Proof. intros h k (x1 & y1 & T & K & E). exists x1, y1. repeat apply conj; [exact T|exact K|apply (cach_of _ _ _ E)..]. Qed.
Lemma crep_0 : crep cached_0 0.
Proof. exists 0, 1. split; [constructor|]. split; [unfold on_curve; cgring|exact cach_0]. Qed.
Lemma crep_opp : forall c k, crep c k -> crep (Ca (YminusX c) (YplusX c) (cZ c) (sub 0 (T2d c))) (- k).
Proof.
  intros c k (x1 & y1 & T & K & E). exists (- x1), y1. split; [constructor; exact T|].
  split; [apply curve_neg; exact K|apply cach_opp; exact E].
Qed.
Lemma rep_add : forall h c k l, rep h k -> crep c l -> rep (p1p1_to_p3 (add_cached h c)) (k + l).
Proof.
  intros h c k l (x1 & y1 & T1 & K1 & E1) (x2 & y2 & T2 & K2 & E2).
  destruct (C109_closed _ _ _ _ K1 K2) as [(x3 & y3 & S) K]. exists x3, y3.
  split; [exact (times_sum _ _ _ _ _ _ _ _ _ _ T1 T2 S)|]. split; [exact (K _ _ S)|].
  exact (add_ok _ _ _ _ _ _ _ _ E1 E2 S).
Qed.
Lemma rep_dbl_xyz : forall X Y Z T k, rep (Pt X Y Z T) k -> rep (p1p1_to_p3 (p2_dbl X Y Z)) (k + k).
Proof.
  intros X Y Z T k (x1 & y1 & T1 & K1 & E1).
  destruct (C109_closed _ _ _ _ K1 K1) as [(x3 & y3 & S) K]. exists x3, y3.
  split; [exact (times_sum _ _ _ _ _ _ _ _ _ _ T1 T1 S)|]. split; [exact (K _ _ S)|].
  exact (dbl_xyz _ _ _ _ _ _ _ K1 (proj1 E1) S).
Qed.
Lemma rep_dbl : forall h k, rep h k -> rep (p1p1_to_p3 (p3_dbl h)) (k + k).
Proof. intros [X Y Z T] k. apply rep_dbl_xyz. Qed.
Lemma rep_dbl2 : forall r k, rep (p1p1_to_p3 r) k ->
  rep (p1p1_to_p3 (p2_dbl (pX (p1p1_to_p2 r)) (pY (p1p1_to_p2 r)) (pZ (p1p1_to_p2 r)))) (k + k).
Proof. intros r k H. exact (rep_dbl_xyz _ _ _ _ _ H). Qed.
Lemma rep_16 : forall r k, rep (p1p1_to_p3 r) k -> rep (p1p1_to_p3 (times16 r)) (16 * k).
Proof.
  intros r k H. apply rep_dbl2, rep_dbl2, rep_dbl2, rep_dbl2 in H.
  eapply rep_eq; [|exact H]. ring.
Qed.

Definition good (tab : list cached) : Prop := exists c1 c2 c3 c4 c5 c6 c7 c8, tab = [c1; c2; c3; c4; c5; c6; c7; c8] /\
  crep c1 1 /\ crep c2 2 /\ crep c3 3 /\ crep c4 4 /\ crep c5 5 /\ crep c6 6 /\ crep c7 7 /\ crep c8 8.

Lemma table_ok : forall p, ext p x y -> good (pi_table p).
Proof.
  intros p E.
  assert (R1 : rep p 1) by (exists x, y; repeat apply conj; [constructor|exact C|apply E..]).
  unfold pi_table.
  pose proof (rep_dbl _ _ R1) as R2. set (p2 := p1p1_to_p3 (p3_dbl p)) in *.
  pose proof (rep_add _ _ _ _ R1 (crep_of _ _ R2)) as R3. set (p3 := p1p1_to_p3 (add_cached p (p3_to_cached p2))) in *.
  pose proof (rep_dbl _ _ R2) as R4. set (p4 := p1p1_to_p3 (p3_dbl p2)) in *.
  pose proof (rep_add _ _ _ _ R1 (crep_of _ _ R4)) as R5. set (p5 := p1p1_to_p3 (add_cached p (p3_to_cached p4))) in *.
  pose proof (rep_dbl _ _ R3) as R6. set (p6 := p1p1_to_p3 (p3_dbl p3)) in *.
  pose proof (rep_add _ _ _ _ R1 (crep_of _ _ R6)) as R7. set (p7 := p1p1_to_p3 (add_cached p (p3_to_cached p6))) in *.
  pose proof (rep_dbl _ _ R4) as R8. set (p8 := p1p1_to_p3 (p3_dbl p4)) in *.
  cbv zeta. unfold good. do 8 eexists. split; [reflexivity|].
  repeat apply conj; apply crep_of; assumption.
Qed.

Lemma select_ok : forall tab d, good tab -> -8 <= d <= 8 -> crep (cmov8_cached tab d) d.
Proof.
  intros tab d (c1 & c2 & c3 & c4 & c5 & c6 & c7 & c8 & -> & H1 & H2 & H3 & H4 & H5 & H6 & H7 & H8) D.
  assert (K : d = 0 \/ d = 1 \/ d = 2 \/ d = 3 \/ d = 4 \/ d = 5 \/ d = 6 \/ d = 7 \/ d = 8 \/
    d = -1 \/ d = -2 \/ d = -3 \/ d = -4 \/ d = -5 \/ d = -6 \/ d = -7 \/ d = -8) by lia.
  repeat (destruct K as [-> | K]); [exact crep_0|assumption..| | | | | | | |subst d].
  - exact (crep_opp _ _ H1).
  - exact (crep_opp _ _ H2).
  - exact (crep_opp _ _ H3).
  - exact (crep_opp _ _ H4).
  - exact (crep_opp _ _ H5).
  - exact (crep_opp _ _ H6).
  - exact (crep_opp _ _ H7).
  - exact (crep_opp _ _ H8).
Qed.

(** the value of digits from the highest down, after k *)
Fixpoint horner (e : list Z) (k : Z) : Z :=
  match e with
  | [] => k
  | d :: r => match r with [] => k + d | _ => horner r (16 * (k + d)) end
  end.

Lemma loop_rep : forall tab, good tab -> forall e h k, e <> [] -> Forall (fun d => -8 <= d <= 8) e -> rep h k ->
  rep (sm_loop tab e h) (horner e k).
Proof.
  intros tab G. induction e as [|d e IH]; intros h k N F H; [congruence|].
  inversion F as [|? ? D F']; subst. cbn [sm_loop horner].
  pose proof (rep_add _ _ _ _ H (select_ok tab d G D)) as A.
  destruct e as [|d' e]; [exact A|].
  apply IH; [congruence|exact F'|]. apply rep_16. exact A.
Qed.
End Mult.

Lemma horner_app : forall e d k, e <> [] -> horner (e ++ [d]) k = 16 * horner e k + d.
Proof.
  induction e as [|a e IH]; intros d k N; [congruence|].
  destruct e as [|b e]; [reflexivity|].
  change (horner ((a :: b :: e) ++ [d]) k) with (horner ((b :: e) ++ [d]) (16 * (k + a))).
  change (horner (a :: b :: e) k) with (horner (b :: e) (16 * (k + a))). apply IH. congruence.
Qed.
Lemma horner_rev : forall l, l <> [] -> horner (rev l) 0 = val16 l.
Proof.
  induction l as [|d l IH]; intros N; [congruence|]. cbn [rev val16].
  destruct l as [|d' l]; [cbn; lia|].
  rewrite horner_app; [rewrite IH by congruence; lia|].
  cbn [rev]. intros K. apply app_eq_nil in K. destruct K as [_ K]. discriminate.
Qed.

(** ge25519_scalarmult: a p, for all points of the curve, all their
    representations and all scalars below 2^255 *)
Theorem C111_scalarmult : forall a p x y, length a = 32%nat -> Forall (fun b => 0 <= b < 256) a -> nth 31 a 0 <= 127 ->
  on_curve x y -> ext p x y ->
  exists x' y', times x y (le a) x' y' /\ on_curve x' y' /\ ext (scalarmult a p) x' y'.
Proof.
  intros a p x y N F T C E. destruct (C111_digits a N F T) as (V & D & _). rewrite <- V.
  assert (K : recode (nibbles a) 0 <> []).
  { destruct a as [|b a]; [discriminate|]. cbn [nibbles recode]. congruence. }
  rewrite <- (horner_rev _ K). unfold scalarmult.
  apply (loop_rep x y (pi_table p) (table_ok x y C p E)).
  - intros Z. apply K. rewrite <- (rev_involutive (recode (nibbles a) 0)), Z. reflexivity.
  - apply Forall_rev. exact D.
  - exists 0, 1. split; [constructor|]. split; [unfold on_curve; cgring|].
    unfold ext, stands_for. cbn [pX pY pZ pT]. repeat apply conj; try cgring. exists 1. reflexivity.
Qed.
Print Assumptions C111_scalarmult.

(** without the precondition a[31] <= 127 the highest digit is lost: with
    15 * 16^63 and 0, say, the same result *)
Theorem C111_high_refuted : exists a b, length a = 32%nat /\ Forall (fun z => 0 <= z < 256) a /\ le a = 15 * 16 ^ 63 /\
  le b = 0 /\ forall p, scalarmult a p = scalarmult b p.
Proof.
  exists (repeat 0 31 ++ [240]), (repeat 0 32).
  split; [reflexivity|]. split; [cbn; repeat constructor; lia|]. split; [vm_compute; reflexivity|].
  split; [vm_compute; reflexivity|]. intros p. unfold scalarmult.
  set (ea := rev (recode (nibbles (repeat 0 31 ++ [240])) 0)). set (eb := rev (recode (nibbles (repeat 0 32)) 0)).
  assert (A : ea = 15 :: tl eb) by (vm_compute; reflexivity). assert (B : eb = 0 :: tl eb) by (vm_compute; reflexivity).
  rewrite A, B. cbn [tl].
  assert (S : cmov8_cached (pi_table p) 15 = cmov8_cached (pi_table p) 0) by reflexivity.
  cbn [sm_loop]. rewrite S. reflexivity.
Qed.
Print Assumptions C111_high_refuted.

Example C111_ex : on_curve base_x base_y /\ nth 31 (9 :: repeat 0 30 ++ [127]) 0 <= 127 /\
  exists x' y', times base_x base_y (9 + 127 * 256 ^ 31) x' y' /\
    ext (scalarmult (9 :: repeat 0 30 ++ [127]) (Pt base_x base_y 1 (base_x * base_y))) x' y'.
Proof.
  destruct C109_ex as (C & E & _). split; [exact C|]. split; [cbn; lia|].
  destruct (C111_scalarmult (9 :: repeat 0 30 ++ [127]) _ _ _ eq_refl ltac:(cbn; repeat constructor; lia) ltac:(cbn; lia) C E)
    as (x' & y' & T & _ & H).
  exists x', y'. split; [exact T|exact H].
Qed.
