(** * C112: the table base[32][8] holds the multiples of the base point *)
From Coq Require Import ZArith Lia Bool List Zdiv Setoid Morphisms.
From Verif Require Import X25519Spec GeSmallModel PropSmallOrder GeDecodeModel PropGeDecode GeAddModel PropGeAdd GeAdd2Model PropGeAdd2
  GeScalarModel PropGeScalar GeBaseModel PropGeBase GeBaseTable GeBaseWit.
Import ListNotations.
Open Scope Z_scope.

#[local] Existing Instance cg_equiv.
#[local] Existing Instance cg_add.
#[local] Existing Instance cg_mul.
#[local] Existing Instance cg_sub.

(** q p + c *)
Definition qp (q c : Z) : Z := Z.shiftl q 255 - 19 * q + c.
Lemma qp_ok : forall a q c, a =? qp q c = true -> cg a c.
Proof.
  intros a q c H. apply Z.eqb_eq in H. rewrite H. unfold qp. rewrite Z.shiftl_mul_pow2 by lia.
  apply cg_iff. replace (q * 2 ^ 255 - 19 * q + c) with (c + q * p25519) by (unfold p25519; ring).
  apply Z.mod_add. pose proof p_pos. lia.
Qed.

(** the sum of two points, from its witnesses *)
Definition chk (x1 y1 x2 y2 : Z) (w : list Z) : option (Z * Z) :=
  match w with
  | [x3; y3; a; qa; b; qb; c; qc; m; qm; e; qe; qx; qy] =>
      if (x1 * x2 =? qp qa a) && (y1 * y2 =? qp qb b) && ((x1 + y1) * (x2 + y2) =? qp qc c) &&
         (a * b =? qp qm m) && (d8032 * m =? qp qe e) && (x3 * (1 + e) =? qp qx (c - a - b)) && (y3 * (1 - e) =? qp qy (a + b))
      then Some (x3, y3) else None
  | _ => None
  end.
Lemma chk_ok : forall x1 y1 x2 y2 w x3 y3, on_curve x1 y1 -> on_curve x2 y2 -> chk x1 y1 x2 y2 w = Some (x3, y3) ->
  sum x1 y1 x2 y2 x3 y3.
Proof.
  intros x1 y1 x2 y2 w x3 y3 C1 C2 H. unfold chk in H.
  do 14 (destruct w as [|? w]; [discriminate|]). destruct w; [|discriminate].
  match type of H with (if ?b then _ else _) = _ => destruct b eqn:B end; [|discriminate].
  injection H as -> ->. rewrite !andb_true_iff in B. destruct B as ((((((A & B) & D) & M) & E) & X) & Y).
  apply qp_ok in A, B, D, M, E, X, Y.
  destruct (denominators x1 y1 x2 y2 C1 C2) as [N1 N2].
  destruct (inverse _ N1) as [u U]. destruct (inverse _ N2) as [v V]. exists u, v. split; [exact U|]. split; [exact V|].
  rewrite <- E, <- M, <- A, <- B in X, Y. rewrite <- D in X. split.
  - transitivity (x3 * ((1 + d8032 * x1 * x2 * y1 * y2) * u)); [rewrite U; cgring|].
    transitivity (x3 * (1 + d8032 * (x1 * x2 * (y1 * y2))) * u); [cgring|]. rewrite X. cgring.
  - transitivity (y3 * ((1 - d8032 * x1 * x2 * y1 * y2) * v)); [rewrite V; cgring|].
    transitivity (y3 * (1 - d8032 * (x1 * x2 * (y1 * y2))) * v); [cgring|]. rewrite Y. cgring.
Qed.

(** equal up to a few multiples of p *)
Definition near (v w : Z) : bool := (v =? w) || (v =? qp 1 w) || (v =? qp (-1) w).
Lemma near_ok : forall v w, near v w = true -> cg v w.
Proof.
  intros v w H. unfold near in H. rewrite !orb_true_iff in H. destruct H as [[H|H]|H].
  - apply Z.eqb_eq in H. rewrite H. reflexivity.
  - exact (qp_ok _ _ _ H).
  - exact (qp_ok _ _ _ H).
Qed.

(** an entry of the table for a point *)
Definition ent (q : precomp) (x y : Z) (w : list Z) : bool :=
  match w with
  | [t; qt; q2] => near (yplusx q) (y + x) && near (yminusx q) (y - x) && (x * y =? qp qt t) && (ed25519_d2 * t =? qp q2 (xy2d q))
  | _ => false
  end.
Lemma ent_ok : forall q x y w, ent q x y w = true -> entry q x y.
Proof.
  intros q x y w H. unfold ent in H. destruct w as [|t [|qt [|q2 [|]]]]; try discriminate.
  rewrite !andb_true_iff in H. destruct H as (((A & B) & T) & D).
  apply near_ok in A, B. apply qp_ok in T, D. split; [exact A|]. split; [exact B|].
  rewrite <- D, <- T, d2_ok. cgring.
Qed.

(** a row: entries for P, P + Q, P + 2Q, ...; the last point *)
Fixpoint row_chk (x1 y1 x y : Z) (row : list precomp) (es ws : list (list Z)) : option (Z * Z) :=
  match row, es with
  | q :: row, e :: es =>
      if ent q x y e then
        match row, ws with
        | [], _ => Some (x, y)
        | _, w :: ws => match chk x y x1 y1 w with Some (x', y') => row_chk x1 y1 x' y' row es ws | None => None end
        | _, [] => None
        end
      else None
  | _, _ => None
  end.
Fixpoint dbl_chk (x y : Z) (ds : list (list Z)) : option (Z * Z) :=
  match ds with
  | [] => Some (x, y)
  | w :: ds => match chk x y x y w with Some (x', y') => dbl_chk x' y' ds | None => None end
  end.
Fixpoint tab_chk (x y : Z) (rows : list (list precomp)) (ws : list (list (list Z) * list (list Z) * list (list Z))) : bool :=
  match rows, ws with
  | [], _ => true
  | row :: rows, (es, as_, ds) :: ws =>
      match row_chk x y x y row es as_ with
      | Some (x', y') =>
          match rows with
          | [] => true
          | _ => (length ds =? 5)%nat && match dbl_chk x' y' ds with Some (x2, y2) => tab_chk x2 y2 rows ws | None => false end
          end
      | None => false
      end
  | _, [] => false
  end.

Section Table.
Variables x0 y0 : Z.

Definition is (x y k : Z) : Prop := times x0 y0 k x y /\ on_curve x y.
Lemma is_chk : forall x1 y1 x2 y2 k l w x3 y3, is x1 y1 k -> is x2 y2 l -> chk x1 y1 x2 y2 w = Some (x3, y3) -> is x3 y3 (k + l).
Proof.
  intros x1 y1 x2 y2 k l w x3 y3 [T1 C1] [T2 C2] H. pose proof (chk_ok _ _ _ _ _ _ _ C1 C2 H) as S. split.
  - exact (times_sum _ _ _ _ _ _ _ _ _ _ T1 T2 S).
  - exact (proj2 (C109_closed _ _ _ _ C1 C2) _ _ S).
Qed.
Lemma row_chk_ok : forall row es ws x1 y1 x y k l x' y', is x1 y1 k -> is x y l ->
  row_chk x1 y1 x y row es ws = Some (x', y') ->
  (forall j, (j < length row)%nat -> holds x0 y0 (nth j row (Pre 0 0 0)) (l + Z.of_nat j * k)) /\
  is x' y' (l + (Z.of_nat (length row) - 1) * k).
Proof.
  induction row as [|q row IH]; intros [|e es] ws x1 y1 x y k l x' y' I1 I H; try discriminate.
  cbn [row_chk] in H. destruct (ent q x y e) eqn:E; [|discriminate].
  assert (Q : holds x0 y0 q l) by (exists x, y; split; [apply I|split; [apply I|exact (ent_ok _ _ _ _ E)]]).
  destruct row as [|q' row].
  - injection H as <- <-. split.
    + intros [|j] Hj; [|cbn in Hj; lia]. cbn [nth]. replace (l + Z.of_nat 0 * k) with l by lia. exact Q.
    + cbn [length]. replace (l + (Z.of_nat 1 - 1) * k) with l by lia. exact I.
  - destruct ws as [|w ws]; [discriminate|]. destruct (chk x y x1 y1 w) as [[x2 y2]|] eqn:K; [|discriminate].
    pose proof (is_chk _ _ _ _ _ _ _ _ _ I I1 K) as I2.
    destruct (IH es ws x1 y1 x2 y2 k (l + k) x' y' I1 I2 H) as [J F]. split.
    + intros [|j] Hj.
      * cbn [nth]. replace (l + Z.of_nat 0 * k) with l by lia. exact Q.
      * replace (l + Z.of_nat (S j) * k) with (l + k + Z.of_nat j * k) by lia.
        change (nth (S j) (q :: q' :: row) (Pre 0 0 0)) with (nth j (q' :: row) (Pre 0 0 0)). apply J. cbn [length] in *. lia.
    + replace (l + (Z.of_nat (length (q :: q' :: row)) - 1) * k) with (l + k + (Z.of_nat (length (q' :: row)) - 1) * k)
        by (cbn [length]; lia). exact F.
Qed.
Lemma dbl_chk_ok : forall ds x y k x' y', is x y k -> dbl_chk x y ds = Some (x', y') ->
  is x' y' (2 ^ Z.of_nat (length ds) * k).
Proof.
  induction ds as [|w ds IH]; intros x y k x' y' I H; cbn [dbl_chk] in H.
  - injection H as <- <-. cbn [length]. change (2 ^ Z.of_nat 0) with 1. rewrite Z.mul_1_l. exact I.
  - destruct (chk x y x y w) as [[x2 y2]|] eqn:K; [|discriminate].
    pose proof (IH _ _ _ _ _ (is_chk _ _ _ _ _ _ _ _ _ I I K) H) as R. cbn [length].
    rewrite Nat2Z.inj_succ, Z.pow_succ_r by lia.
    replace (2 * 2 ^ Z.of_nat (length ds) * k) with (2 ^ Z.of_nat (length ds) * (k + k)) by ring. exact R.
Qed.
Lemma tab_chk_ok : forall rows ws x y k, is x y k -> Forall (fun r => length r = 8%nat) rows -> tab_chk x y rows ws = true ->
  forall i, (i < length rows)%nat -> forall j, (j < 8)%nat ->
  holds x0 y0 (nth j (nth i rows []) (Pre 0 0 0)) ((Z.of_nat j + 1) * (k * 256 ^ Z.of_nat i)).
Proof.
  induction rows as [|row rows IH]; intros ws x y k I F H i Hi; [cbn in Hi; lia|].
  inversion F as [|? ? L8 F']; subst. cbn [tab_chk] in H. destruct ws as [|[[es as_] ds] ws]; [discriminate|].
  destruct (row_chk x y x y row es as_) as [[x' y']|] eqn:R; [|discriminate].
  destruct (row_chk_ok _ _ _ _ _ _ _ _ _ _ _ I I R) as [J E]. destruct i as [|i].
  - intros j Hj. cbn [nth]. change (256 ^ Z.of_nat 0) with 1.
    replace ((Z.of_nat j + 1) * (k * 1)) with (k + Z.of_nat j * k) by ring. apply J. lia.
  - destruct rows as [|row' rows]; [cbn in Hi; lia|].
    apply andb_prop in H. destruct H as [LD H]. apply Nat.eqb_eq in LD.
    destruct (dbl_chk x' y' ds) as [[x2 y2]|] eqn:D; [|discriminate].
    pose proof (dbl_chk_ok _ _ _ _ _ _ E D) as E2. rewrite LD, L8 in E2.
    change (nth (S i) (row :: row' :: rows) []) with (nth i (row' :: rows) []).
    rewrite Nat2Z.inj_succ, Z.pow_succ_r by lia. intros j Hj.
    replace (k * (256 * 256 ^ Z.of_nat i)) with (2 ^ Z.of_nat 5 * (k + (Z.of_nat 8 - 1) * k) * 256 ^ Z.of_nat i)
      by (change (2 ^ Z.of_nat 5) with 32; change (Z.of_nat 8) with 8; ring).
    apply (IH ws x2 y2); [exact E2|exact F'|exact H|cbn [length] in *; lia|exact Hj].
Qed.
End Table.

Lemma checked : tab_chk base_x base_y base_rows wits = true.
Proof. vm_compute. reflexivity. Qed.

(** base[i][j] = (j+1)*256^i*B, for all 256 entries *)
Theorem C112_table : table_of base_x base_y base_rows.
Proof.
  destruct C109_ex as (C & _). split; [reflexivity|]. intros i Hi.
  assert (F : Forall (fun r => length r = 8%nat) base_rows).
  { apply Forall_forall. intros r Hr. apply Nat.eqb_eq. revert r Hr. apply forallb_forall. vm_compute. reflexivity. }
  split.
  - rewrite Forall_forall in F. apply F. apply nth_In. exact Hi.
  - intros j Hj. rewrite <- (Z.mul_1_l (256 ^ Z.of_nat i)).
    apply (tab_chk_ok base_x base_y base_rows wits base_x base_y 1); [split; [constructor|exact C]|exact F|exact checked|exact Hi|exact Hj].
Qed.
Print Assumptions C112_table.

(** ge25519_scalarmult_base: a B, for all scalars below 2^255 *)
Theorem C112_base : forall a, length a = 32%nat -> Forall (fun b => 0 <= b < 256) a -> nth 31 a 0 <= 127 ->
  exists x y, times base_x base_y (le a) x y /\ on_curve x y /\ ext (scalarmult_base base_rows a) x y.
Proof. intros a. exact (C112_base_partial base_rows a base_x base_y (proj1 C109_ex) C112_table). Qed.
Print Assumptions C112_base.
