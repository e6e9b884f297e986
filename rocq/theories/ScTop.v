(** * ScTop: loading, storing, and the scalar functions as a whole *)
From Coq Require Import ZArith List Bool Lia Ring.
From Verif Require ZUtil.
From Verif Require Import X25519Spec Curve25519Proof Curve25519Bytes ScModel ScProof.
Import ListNotations.
Open Scope Z_scope.

Fixpoint livb (bs : list block) (n lim : nat) : bool :=
  match bs with
  | [] => true
  | b :: bs => match live b n with Some m => Nat.leb m lim && livb bs m lim | None => false end
  end.
Lemma livb_ok : forall bs n lim, livb bs n lim = true ->
  forall pre b post m, bs = pre ++ b :: post -> lives (pre ++ [b]) n = Some m -> (m <= lim)%nat.
Proof.
  induction bs as [|x bs IH]; intros n lim H pre b post m E Hl; [destruct pre; discriminate|].
  cbn [livb] in H. destruct (live x n) as [n1|] eqn:L1; [|discriminate]. apply andb_prop in H. destruct H as [H1 H2].
  apply Nat.leb_le in H1. destruct pre as [|y pre]; cbn [app] in E; injection E as -> E.
  - cbn [app lives] in Hl. rewrite L1 in Hl. injection Hl as <-. exact H1.
  - cbn [app lives] in Hl. rewrite L1 in Hl. eapply IH; eauto.
Qed.

Definition fold_blocks (ks : list nat) : list block := map BFold ks.
Definition rcars (l : list nat) : list block := map (BCar true) l.
Definition cars (l : list nat) : list block := map (BCar false) l.
Definition bs1 : list block :=
  fold_blocks [23; 22; 21; 20; 19; 18]%nat ++ rcars [6; 8; 10; 12; 14; 16; 7; 9; 11; 13; 15]%nat ++
  fold_blocks [17; 16; 15; 14; 13; 12]%nat ++ [BZero 12] ++
  rcars [0; 2; 4; 6; 8; 10; 1; 3; 5; 7; 9; 11]%nat ++
  [BFold 12; BZero 12] ++ cars [0; 1; 2; 3; 4; 5; 6; 7; 8; 9; 10; 11]%nat.
Definition bs2 : list block := [BFold 12].
Definition bs3 : list block := cars [0; 1; 2; 3; 4; 5; 6; 7; 8; 9; 10]%nat.

Lemma core_blocks : core = flat_map code bs1 ++ flat_map code bs2 ++ flat_map code bs3.
Proof. reflexivity. Qed.

Definition within (lo hi : Z) (a : itv) : bool := (lo <=? fst a) && (snd a <=? hi).
Definition good1 (A : list itv) : bool :=
  forallb (fun i => within 0 2097151 (iget A i)) (seq 0 12) && within (-1) 0 (iget A 12).
Definition good3 (A : list itv) : bool := forallb (fun i => within 0 2097151 (iget A i)) (seq 0 11).
(** the whole check of a starting box *)
Definition box_ok (A : list itv) : bool :=
  Nat.eqb (length A) 24 &&
  match aexec (flat_map code bs1) A with
  | Some A1 => good1 A1 &&
      match aexec (flat_map code bs2) A1 with
      | Some A2 => match aexec (flat_map code bs3) A2 with Some A3 => good3 A3 | None => false end
      | None => false
      end
  | None => false
  end.

Lemma within_in : forall x a lo hi, inside x a -> within lo hi a = true -> lo <= x <= hi.
Proof. intros x a lo hi [I1 I2] W. unfold within in W. bools. lia. Qed.

Lemma valn_range : forall n s, (forall i, (i < n)%nat -> 0 <= get s i <= 2097151) ->
  0 <= valn n s < 2 ^ (21 * Z.of_nat n).
Proof.
  induction n as [|n IH]; intros s H; [cbn; lia|]. cbn [valn]. rewrite pow21.
  specialize (IH s (fun i Hi => H i ltac:(lia))). specialize (H n ltac:(lia)). nia.
Qed.

Lemma gamma_length : forall s A, gamma s A -> length s = length A.
Proof. intros s A H. apply H. Qed.
Lemma if_some : forall (A : Type) (c : bool) (x y : A), (if c then Some x else None) = Some y -> x = y.
Proof. intros A [|] x y H; [now injection H|discriminate]. Qed.
Lemma exec1_length : forall ins s s', exec1 ins s = Some s' -> length s' = length s.
Proof.
  intros [d k c|d k c|i|i|i] s s' H; unfold exec1 in H.
  - apply if_some in H. rewrite <- H. apply set_length.
  - apply if_some in H. rewrite <- H. apply set_length.
  - apply if_some in H. rewrite <- H. rewrite set_length. apply set_length.
  - apply if_some in H. rewrite <- H. rewrite set_length. apply set_length.
  - assert (set s i 0 = s') as <- by congruence. apply set_length.
Qed.
Lemma exec_length : forall p s s', exec p s = Some s' -> length s' = length s.
Proof.
  induction p as [|i p IH]; intros s s' H; cbn in H; [injection H as <-; reflexivity|].
  destruct (exec1 i s) as [s1|] eqn:E; [|discriminate]. rewrite (IH _ _ H). eapply exec1_length; eauto.
Qed.

Lemma core_ok : forall s A, gamma s A -> box_ok A = true ->
  exists s', exec core s = Some s' /\ (forall i, (i < 11)%nat -> 0 <= get s' i <= 2097151) /\ 0 <= get s' 11 /\
    valn 12 s' = valn 24 s mod L25519.
Proof.
  intros s A G B. unfold box_ok in B. apply andb_prop in B. destruct B as [LA B]. apply Nat.eqb_eq in LA.
  destruct (aexec (flat_map code bs1) A) as [A1|] eqn:E1; [|discriminate].
  apply andb_prop in B. destruct B as [B1 B].
  destruct (aexec (flat_map code bs2) A1) as [A2|] eqn:E2; [|discriminate].
  destruct (aexec (flat_map code bs3) A2) as [A3|] eqn:E3; [|discriminate].
  assert (Ls : length s = 24%nat) by (rewrite (gamma_length _ _ G); exact LA).
  destruct (blocks_ok bs1 24 13 s A A1 G E1 eq_refl) as (s1 & X1 & G1 & C1 & _).
  { rewrite Ls. apply livb_ok. reflexivity. }
  assert (L1 : length s1 = 24%nat) by (rewrite (exec_length _ _ _ X1); exact Ls).
  rewrite core_blocks, exec_app, X1, exec_app.
  destruct (block_ok (BFold 12) 13 12 s1 A1 A2 G1) as (s2 & X2 & G2 & V2); [|reflexivity|lia|].
  { cbn [flat_map bs2 app] in E2. rewrite app_nil_r in E2. exact E2. }
  change (flat_map code bs2) with (code (BFold 12)). rewrite X2.
  assert (L2 : length s2 = 24%nat) by (rewrite (exec_length _ _ _ X2); exact L1).
  destruct (blocks_ok bs3 12 12 s2 A2 A3 G2 E3 eq_refl) as (s3 & X3 & G3 & _ & V3).
  { rewrite L2. apply livb_ok. reflexivity. }
  specialize (V3 eq_refl). rewrite X3. exists s3. split; [reflexivity|].
  unfold good1 in B1. apply andb_prop in B1. destruct B1 as [B1 B12].
  assert (R1 : forall i, (i < 12)%nat -> 0 <= get s1 i <= 2097151).
  { intros i Hi. apply (within_in _ (iget A1 i)); [apply G1|].
    apply (proj1 (forallb_forall _ _) B1). apply in_seq. lia. }
  assert (R12 : -1 <= get s1 12 <= 0) by (apply (within_in _ (iget A1 12)); [apply G1|exact B12]).
  assert (R3 : forall i, (i < 11)%nat -> 0 <= get s3 i <= 2097151).
  { intros i Hi. apply (within_in _ (iget A3 i)); [apply G3|].
    apply (proj1 (forallb_forall _ _) B). apply in_seq. lia. }
  assert (V : valn 12 s3 = valn 12 s1 - get s1 12 * 27742317777372353535851937790883648493).
  { rewrite V3, V2. change (valn 13 s1) with (valn 12 s1 + get s1 12 * 2 ^ 252).
    change (2 ^ (21 * Z.of_nat (12 - 12))) with 1. unfold L25519. ring. }
  pose proof (valn_range 12 s1 R1) as W1. change (2 ^ (21 * Z.of_nat 12)) with (2 ^ 252) in W1.
  assert (W3 : 0 <= valn 12 s3 < L25519).
  { rewrite V. unfold L25519. assert (get s1 12 = -1 \/ get s1 12 = 0) as [-> | ->] by lia; lia. }
  split; [exact R3|]. split.
  - pose proof (valn_range 11 s3 R3) as Q.
    assert (E : valn 12 s3 = valn 11 s3 + get s3 11 * 2 ^ 231) by reflexivity.
    change (2 ^ (21 * Z.of_nat 11)) with (2 ^ 231) in Q.
    change (2 ^ 231) with 3450873173395281893717377931138512726225554486085193277581262111899648 in *. lia.
  - destruct C1 as [k C1].
    assert (V' : valn 12 s3 = valn 24 s + (k - get s1 12) * L25519).
    { rewrite V. assert (valn 13 s1 = valn 12 s1 + get s1 12 * 2 ^ 252) by reflexivity.
      unfold L25519 in *. lia. }
    apply (Z.mod_unique_pos _ _ (- (k - get s1 12))); [exact W3|]. rewrite V'.
    generalize (valn 24 s) (get s1 12) L25519. intros a b c. ring.
Qed.

(** ** loading *)
Definition row_ok (len i : nat) (last : nat) (r : nat * nat * Z * bool) : bool :=
  let '(off, n, sh, m) := r in
  (0 <=? sh) && (8 * Z.of_nat off + sh =? 21 * Z.of_nat i) &&
  (if m then (sh + 21 <=? 8 * Z.of_nat n) && Nat.ltb i last && Nat.leb (off + n) len
   else Nat.eqb (off + n) len && Nat.eqb i last).

Lemma load_le : forall s off n, Forall byteZ s -> (off + n <= length s)%nat ->
  load s off n = le s / 2 ^ (8 * Z.of_nat off) mod 2 ^ (8 * Z.of_nat n).
Proof.
  intros s i n Hs Hl.
  assert (E : load s i n = le (firstn n (skipn i s))).
  { pose proof (ld_go s i n 0 Hs) as Q. unfold Curve25519Model.ld8 in Q. unfold load. rewrite Q.
    rewrite Nat.add_0_r. change (2 ^ (8 * Z.of_nat 0)) with 1. lia. }
  rewrite E. rewrite <- (firstn_skipn i s) at 2. rewrite le_app, firstn_length, Nat.min_l by lia.
  change 256 with (2 ^ 8). rewrite <- Z.pow_mul_r by lia.
  assert (H1 : Forall byteZ (firstn i s)) by now apply Forall_firstn.
  assert (H2 : Forall byteZ (skipn i s)) by now apply Forall_skipn.
  pose proof (le_nonneg _ H1) as B1. rewrite firstn_length, Nat.min_l in B1 by lia.
  change 256 with (2 ^ 8) in B1. rewrite <- Z.pow_mul_r in B1 by lia.
  rewrite (Z.mul_comm (2 ^ _)), Z.div_add by (apply Z.pow_nonzero; lia).
  rewrite Z.div_small by assumption. rewrite Z.add_0_l.
  rewrite <- (firstn_skipn n (skipn i s)) at 2. rewrite le_app.
  rewrite firstn_length, skipn_length, Nat.min_l by lia.
  change 256 with (2 ^ 8). rewrite <- Z.pow_mul_r by lia.
  rewrite (Z.mul_comm (2 ^ (8 * Z.of_nat n))), Z.mod_add by (apply Z.pow_nonzero; lia).
  symmetry. apply Z.mod_small.
  pose proof (le_nonneg (firstn n (skipn i s)) (Forall_firstn n _ H2)) as B2.
  rewrite firstn_length, skipn_length, Nat.min_l in B2 by lia.
  change 256 with (2 ^ 8) in B2. rewrite <- Z.pow_mul_r in B2 by lia. exact B2.
Qed.

Lemma limb_le21 : forall s i last r, Forall byteZ s -> row_ok (length s) i last r = true ->
  limb s r = if Nat.ltb i last then le s / 2 ^ (21 * Z.of_nat i) mod 2 ^ 21 else le s / 2 ^ (21 * Z.of_nat i).
Proof.
  intros s i last [[[off n] sh] m] Hs H. unfold row_ok in H. apply andb_prop in H. destruct H as [H H2].
  apply andb_prop in H. destruct H as [H0 H1]. apply Z.leb_le in H0. apply Z.eqb_eq in H1.
  unfold limb. destruct m.
  - apply andb_prop in H2. destruct H2 as [H2 H4]. apply andb_prop in H2. destruct H2 as [H2 H3].
    apply Z.leb_le in H2. rewrite H3. apply Nat.leb_le in H4.
    rewrite load_le by assumption. rewrite Z.land_comm. change 2097151 with (Z.ones 21).
    rewrite <- (Z.land_ones _ 21) by lia. apply Z.bits_inj'. intros k Hk. rewrite !Z.land_spec.
    destruct (Z.ltb_spec k 21) as [Lk|Lk].
    + rewrite !Z.ones_spec_low by lia. rewrite !andb_true_r, Z.shiftr_spec by lia.
      rewrite Z.mod_pow2_bits_low by lia. rewrite !Z.div_pow2_bits by lia.
      apply (f_equal (Z.testbit (le s))). lia.
    + rewrite !Z.ones_spec_high by lia. now rewrite !andb_false_r.
  - apply andb_prop in H2. destruct H2 as [H2 H3]. apply Nat.eqb_eq in H2. apply Nat.eqb_eq in H3. subst last.
    rewrite Nat.ltb_irrefl. rewrite load_le by (assumption || lia).
    rewrite Z.shiftr_div_pow2 by lia.
    pose proof (le_nonneg s Hs) as B. change 256 with (2 ^ 8) in B. rewrite <- Z.pow_mul_r in B by lia.
    rewrite (Z.mod_small (le s / _)).
    + rewrite Z.div_div by (try apply Z.pow_nonzero; try apply Z.pow_pos_nonneg; lia).
      rewrite <- Z.pow_add_r by lia. now rewrite H1.
    + split; [apply Z.div_pos; [lia|apply Z.pow_pos_nonneg; lia]|].
      apply Z.div_lt_upper_bound; [apply Z.pow_pos_nonneg; lia|]. rewrite <- Z.pow_add_r by lia.
      replace (8 * Z.of_nat off + 8 * Z.of_nat n) with (8 * Z.of_nat (length s)) by lia. apply B.
Qed.

Lemma digits : forall V n s, (forall i, (i < n)%nat -> get s i = V / 2 ^ (21 * Z.of_nat i) mod 2 ^ 21) ->
  valn n s = V - 2 ^ (21 * Z.of_nat n) * (V / 2 ^ (21 * Z.of_nat n)).
Proof.
  intros V n s. induction n as [|n IH]; intros H.
  - cbn [valn]. change (2 ^ (21 * Z.of_nat 0)) with 1. rewrite Z.div_1_r. lia.
  - cbn [valn]. rewrite IH by (intros i Hi; apply H; lia). rewrite (H n) by lia.
    rewrite pow21. rewrite (Z.mul_comm 2097152 (2 ^ _)).
    assert (P : 0 < 2 ^ (21 * Z.of_nat n)) by (apply Z.pow_pos_nonneg; lia).
    rewrite <- (Z.div_div V) by lia. change (2 ^ 21) with 2097152.
    pose proof (Z.div_mod (V / 2 ^ (21 * Z.of_nat n)) 2097152 ltac:(lia)) as D. nia.
Qed.

Fixpoint rows_ok (len last i : nat) (rs : list (nat * nat * Z * bool)) : bool :=
  match rs with [] => Nat.eqb i (S last) | r :: rs => row_ok len i last r && rows_ok len last (S i) rs end.

Lemma rows_nth : forall len last rs i0, rows_ok len last i0 rs = true ->
  (i0 + length rs = S last)%nat /\
  forall j, (j < length rs)%nat -> row_ok len (i0 + j) last (nth j rs (0%nat, 0%nat, 0, true)) = true.
Proof.
  induction rs as [|r rs IH]; intros i0 H; cbn [rows_ok] in H.
  - apply Nat.eqb_eq in H. split; [cbn; lia|intros j Hj; cbn in Hj; lia].
  - apply andb_prop in H. destruct H as [H1 H2]. destruct (IH _ H2) as [L N]. split; [cbn [length]; lia|].
    intros [|j] Hj; cbn [nth].
    + now rewrite Nat.add_0_r.
    + cbn [length] in Hj. replace (i0 + S j)%nat with (S i0 + j)%nat by lia. apply N. lia.
Qed.

Lemma loaded : forall s last rs, Forall byteZ s -> rows_ok (length s) last 0 rs = true ->
  let l := map (limb s) rs in
  length l = S last /\ valn (S last) l = le s /\
  (forall i, (i < last)%nat -> 0 <= get l i <= 2097151) /\
  0 <= get l last <= le s / 2 ^ (21 * Z.of_nat last).
Proof.
  intros s last rs Hs H l. destruct (rows_nth _ _ _ _ H) as [L N]. cbn [Nat.add] in L, N.
  assert (Ll : length l = S last) by (unfold l; rewrite map_length; lia).
  assert (Hn : forall i, (i <= last)%nat -> get l i =
     if Nat.ltb i last then le s / 2 ^ (21 * Z.of_nat i) mod 2 ^ 21 else le s / 2 ^ (21 * Z.of_nat i)).
  { intros i Hi. unfold get, l. rewrite (nth_indep _ 0 (limb s (0%nat, 0%nat, 0, true))) by (rewrite map_length; lia).
    rewrite map_nth. apply limb_le21; [exact Hs|]. apply (N i). lia. }
  assert (Pos : 0 <= le s / 2 ^ (21 * Z.of_nat last)).
  { apply Z.div_pos; [apply le_nonneg; exact Hs|apply Z.pow_pos_nonneg; lia]. }
  split; [exact Ll|]. split; [|split].
  - cbn [valn]. rewrite (digits (le s)).
    + rewrite (Hn last) by lia. rewrite Nat.ltb_irrefl. ring.
    + intros i Hi. rewrite Hn by lia. now rewrite (proj2 (Nat.ltb_lt i last)).
  - intros i Hi. rewrite Hn by lia. rewrite (proj2 (Nat.ltb_lt i last)) by lia.
    pose proof (Z.mod_pos_bound (le s / 2 ^ (21 * Z.of_nat i)) (2 ^ 21) ltac:(lia)). lia.
  - rewrite (Hn last) by lia. rewrite Nat.ltb_irrefl. lia.
Qed.

(** ** storing *)
Lemma valn_bit : forall n s, (forall j, (j < n)%nat -> 0 <= get s j <= 2097151) -> 0 <= get s n ->
  forall i b, 0 <= b -> ((i < n)%nat /\ b < 21) \/ i = n ->
  Z.testbit (valn (S n) s) (21 * Z.of_nat i + b) = Z.testbit (get s i) b.
Proof.
  induction n as [|n IH]; intros s H Hn i b Hb Hi.
  - destruct Hi as [[Hi _]| ->]; [lia|]. cbn [valn]. change (2 ^ (21 * Z.of_nat 0)) with 1.
    replace (0 + get s 0 * 1) with (get s 0) by ring. apply (f_equal (Z.testbit (get s 0))). lia.
  - pose proof (valn_range (S n) s H) as R.
    change (valn (S (S n)) s) with (valn (S n) s + get s (S n) * 2 ^ (21 * Z.of_nat (S n))).
    rewrite <- lor_disj by lia. rewrite Z.lor_spec.
    destruct Hi as [[Hi Hb']| ->].
    + rewrite (Z.mul_pow2_bits_low (get s (S n))) by lia. rewrite orb_false_r.
      apply IH; [intros j Hj; apply H; lia|apply H; lia|exact Hb|].
      destruct (Nat.eq_dec i n) as [->|]; [now right|left; split; [lia|exact Hb']].
    + rewrite (ZUtil.testbit_above (valn (S n) s) (21 * Z.of_nat (S n))) by lia. rewrite orb_false_l.
      rewrite Z.mul_pow2_bits by lia. apply (f_equal (Z.testbit (get s (S n)))). lia.
Qed.

Definition srow_ok (j : nat) (r : nat * Z * option Z) : bool :=
  let '(i, o, t) := r in
  (0 <=? o) && (8 * Z.of_nat j =? 21 * Z.of_nat i + o) &&
  match t with
  | None => (Nat.ltb i 11 && (o + 8 <=? 21)) || Nat.eqb i 11
  | Some t => Nat.ltb i 11 && (t =? 21 - o) && (0 <=? t) && (t <=? 8)
  end.

Lemma to_le_map : forall n V j0, to_le n (V / 256 ^ Z.of_nat j0) =
  map (fun j => V / 256 ^ Z.of_nat j mod 256) (seq j0 n).
Proof.
  induction n as [|n IH]; intros V j0; [reflexivity|]. cbn [to_le seq map]. f_equal.
  rewrite <- IH. rewrite Nat2Z.inj_succ, Z.pow_succ_r by lia.
  rewrite (Z.mul_comm 256), Z.div_div by (try apply Z.pow_nonzero; lia). reflexivity.
Qed.

Lemma store_ok : forall s j r, (forall i, (i < 11)%nat -> 0 <= get s i <= 2097151) -> 0 <= get s 11 ->
  srow_ok j r = true -> store s r = valn 12 s / 256 ^ Z.of_nat j mod 256.
Proof.
  intros s j [[i o] t] H H11 R. unfold srow_ok in R. apply andb_prop in R. destruct R as [R Rt].
  apply andb_prop in R. destruct R as [R0 R1]. apply Z.leb_le in R0. apply Z.eqb_eq in R1.
  unfold store. change 256 with (2 ^ 8). rewrite <- Z.pow_mul_r by lia.
  apply Z.bits_inj'. intros k Hk. destruct (Z.ltb_spec k 8) as [Lk|Lk];
    [|now rewrite !Z.mod_pow2_bits_high by lia].
  rewrite !Z.mod_pow2_bits_low by lia. rewrite Z.div_pow2_bits by lia.
  destruct t as [t|].
  - apply andb_prop in Rt. destruct Rt as [Rt T4]. apply andb_prop in Rt. destruct Rt as [Rt T3].
    apply andb_prop in Rt. destruct Rt as [T1 T2]. apply Nat.ltb_lt in T1. apply Z.eqb_eq in T2.
    apply Z.leb_le in T3. apply Z.leb_le in T4. rewrite Z.lor_spec, Z.shiftr_spec by lia.
    destruct (Z.ltb_spec (k + o) 21) as [Lo|Lo].
    + rewrite (Z.mul_pow2_bits_low (get s (S i))) by lia. rewrite orb_false_r.
      replace (k + 8 * Z.of_nat j) with (21 * Z.of_nat i + (k + o)) by lia.
      symmetry. apply (valn_bit 11 s H H11); [lia|left; lia].
    + rewrite (ZUtil.testbit_above (get s i) 21) by (try lia; specialize (H i T1); lia). rewrite orb_false_l.
      rewrite Z.mul_pow2_bits by lia.
      replace (k + 8 * Z.of_nat j) with (21 * Z.of_nat (S i) + (k - t)) by lia.
      symmetry. apply (valn_bit 11 s H H11); [lia|].
      destruct (Nat.eq_dec (S i) 11); [now right|left; lia].
  - rewrite Z.shiftr_spec by lia.
    replace (k + 8 * Z.of_nat j) with (21 * Z.of_nat i + (k + o)) by lia.
    symmetry. apply (valn_bit 11 s H H11); [lia|].
    apply orb_prop in Rt. destruct Rt as [Rt|Rt].
    + apply andb_prop in Rt. destruct Rt as [T1 T2]. apply Nat.ltb_lt in T1. apply Z.leb_le in T2. left. lia.
    + apply Nat.eqb_eq in Rt. now right.
Qed.

Lemma out32_ok : forall s, (forall i, (i < 11)%nat -> 0 <= get s i <= 2097151) -> 0 <= get s 11 ->
  out32 s = to_le 32 (valn 12 s).
Proof.
  intros s H H11. pose proof (to_le_map 32 (valn 12 s) 0) as E.
  change (256 ^ Z.of_nat 0) with 1 in E. rewrite Z.div_1_r in E. rewrite E. clear E.
  unfold out32.
  assert (C : forallb (fun j => srow_ok j (nth j store32 (0%nat, 0, None))) (seq 0 32) = true) by reflexivity.
  assert (E : store32 = map (fun j => nth j store32 (0%nat, 0, None)) (seq 0 32)) by reflexivity.
  rewrite E, map_map. apply map_ext_in. intros j Hj. apply store_ok; try assumption.
  exact (proj1 (forallb_forall _ _) C j Hj).
Qed.

(** ** sc25519_reduce *)
Definition box_reduce : list itv := repeat (0, 2097151) 23 ++ [(0, 536870911)].
Lemma box_reduce_ok : box_ok box_reduce = true.
Proof. vm_compute. reflexivity. Qed.

Theorem sc_reduce_ok : forall s, length s = 64%nat -> Forall byteZ s ->
  sc_reduce s = Some (to_le 32 (le s mod L25519)).
Proof.
  intros s Ls Hs. unfold sc_reduce, limbs64.
  destruct (loaded s 23 load64 Hs) as (L & V & R & R23); [rewrite Ls; reflexivity|].
  destruct (core_ok (map (limb s) load64) box_reduce) as (s' & X & Q & Q11 & W).
  - split; [rewrite L; reflexivity|]. intros i.
    destruct (Nat.lt_ge_cases i 23) as [Hi|Hi].
    + assert (E : iget box_reduce i = (0, 2097151)).
      { unfold iget, box_reduce. rewrite app_nth1 by (rewrite repeat_length; lia).
        rewrite nth_indep with (d' := (0, 2097151)) by (rewrite repeat_length; lia). apply nth_repeat. }
      rewrite E. unfold inside. cbn [fst snd]. apply R. exact Hi.
    + destruct (Nat.eq_dec i 23) as [->|N].
      * change (iget box_reduce 23) with (0, 536870911). unfold inside. cbn [fst snd].
        pose proof (le_nonneg s Hs) as B. rewrite Ls in B.
        assert (le s / 2 ^ (21 * Z.of_nat 23) < 536870912).
        { apply Z.div_lt_upper_bound; [reflexivity|].
          change (2 ^ (21 * Z.of_nat 23) * 536870912) with (256 ^ Z.of_nat 64). apply B. }
        lia.
      * assert (E1 : get (map (limb s) load64) i = 0) by (apply nth_overflow; lia).
        assert (E2 : iget box_reduce i = (0, 0)).
        { apply nth_overflow. change (length box_reduce) with 24%nat. lia. }
        rewrite E1, E2. unfold inside. cbn. lia.
  - exact box_reduce_ok.
  - rewrite X. cbn [option_map]. rewrite out32_ok by assumption. rewrite W, V. reflexivity.
Qed.

(** ** sc25519_muladd and sc25519_mul *)
Fixpoint sumt (acc : Z) (l : list (Z * Z)) : Z :=
  match l with [] => acc | (x, y) :: l => sumt (acc + x * y) l end.

Lemma dot_ok : forall l acc, 0 <= acc -> acc + Z.of_nat (length l) * 1125899906842624 <= 9223372036854775807 ->
  Forall (fun p => 0 <= fst p < 33554432 /\ 0 <= snd p < 33554432) l ->
  dot acc l = Some (sumt acc l) /\ 0 <= sumt acc l <= acc + Z.of_nat (length l) * 1125899906842624.
Proof.
  induction l as [|[x y] l IH]; intros acc H0 H1 F; cbn [dot sumt length]; [split; [reflexivity|lia]|].
  inversion F as [|? ? [Hx Hy] F']; subst. cbn [fst snd] in *. cbn [length] in H1.
  assert (P : 0 <= x * y <= 1125899906842624) by nia.
  rewrite (proj2 (chk_iff (x * y))), (proj2 (chk_iff (acc + x * y))) by lia. cbn [andb].
  destruct (IH (acc + x * y)) as [E B]; [lia|lia|exact F'|]. split; [exact E|lia].
Qed.

Lemma all_some_map : forall (f : nat -> option Z) g l, (forall i, In i l -> f i = Some (g i)) ->
  forall r t, all_some r = Some t -> all_some (map f l ++ r) = Some (map g l ++ t).
Proof.
  intros f g. induction l as [|i l IH]; intros H r t E; [exact E|].
  cbn [map app all_some]. rewrite (H i) by now left. rewrite (IH (fun j Hj => H j (or_intror Hj)) r t E). reflexivity.
Qed.

Definition small25 (a : list Z) : Prop := length a = 12%nat /\ forall i, 0 <= get a i < 33554432.

Lemma terms_length : forall a b i, (length (terms a b i) <= 12)%nat.
Proof. intros a b i. unfold terms. rewrite map_length, seq_length. lia. Qed.
Lemma terms_small : forall a b i, small25 a -> small25 b ->
  Forall (fun p => 0 <= fst p < 33554432 /\ 0 <= snd p < 33554432) (terms a b i).
Proof.
  intros a b i [_ Ha] [_ Hb]. apply Forall_forall. intros p Hp. apply in_map_iff in Hp.
  destruct Hp as (j & <- & _). cbn [fst snd]. auto.
Qed.

Lemma products_ok : forall a b c, small25 a -> small25 b -> small25 c ->
  products a b c = Some (map (fun i => sumt (get c i) (terms a b i)) (seq 0 23) ++ [0]) /\
  forall i, 0 <= sumt (get c i) (terms a b i) <= 14636698788954112.
Proof.
  intros a b c Ha Hb Hc.
  assert (D : forall i, dot (get c i) (terms a b i) = Some (sumt (get c i) (terms a b i)) /\
     0 <= sumt (get c i) (terms a b i) <= 14636698788954112).
  { intros i. destruct Hc as [_ Hc]. specialize (Hc i). pose proof (terms_length a b i) as Lt.
    destruct (dot_ok (terms a b i) (get c i)) as [E B]; [lia|lia|now apply terms_small|]. split; [exact E|lia]. }
  split; [|intros i; apply D].
  unfold products. apply all_some_map; [intros i _; apply D|reflexivity].
Qed.

Lemma list12 : forall a : list Z, length a = 12%nat ->
  exists a0 a1 a2 a3 a4 a5 a6 a7 a8 a9 a10 a11, a = [a0; a1; a2; a3; a4; a5; a6; a7; a8; a9; a10; a11].
Proof.
  intros a H. do 12 (destruct a as [|? a]; [discriminate|]). destruct a; [|discriminate].
  do 12 eexists. reflexivity.
Qed.

Lemma valn_cons : forall n x l, valn (S n) (x :: l) = x + 2097152 * valn n l.
Proof.
  induction n as [|n IH]; intros x l.
  - cbn [valn]. unfold get. cbn [nth]. change (2 ^ (21 * Z.of_nat 0)) with 1. ring.
  - change (valn (S (S n)) (x :: l)) with (valn (S n) (x :: l) + get (x :: l) (S n) * 2 ^ (21 * Z.of_nat (S n))).
    rewrite IH, pow21. unfold get at 1. cbn [nth valn]. unfold get. ring.
Qed.
Lemma valn_0 : forall l, valn 0 l = 0.
Proof. reflexivity. Qed.

Lemma conv_val : forall a b c, length a = 12%nat -> length b = 12%nat -> length c = 12%nat ->
  valn 23 (map (fun i => sumt (get c i) (terms a b i)) (seq 0 23) ++ [0]) =
  valn 12 a * valn 12 b + valn 12 c.
Proof.
  intros a b c Ha Hb Hc.
  destruct (list12 a Ha) as (a0 & a1 & a2 & a3 & a4 & a5 & a6 & a7 & a8 & a9 & a10 & a11 & ->).
  destruct (list12 b Hb) as (b0 & b1 & b2 & b3 & b4 & b5 & b6 & b7 & b8 & b9 & b10 & b11 & ->).
  destruct (list12 c Hc) as (c0 & c1 & c2 & c3 & c4 & c5 & c6 & c7 & c8 & c9 & c10 & c11 & ->).
  clear. cbn [seq map app terms sumt get nth Nat.sub Nat.add Nat.min].
  rewrite !valn_cons, !valn_0. generalize 2097152. intros B. ring.
Qed.

Definition preb : list block :=
  BZero 23 :: rcars [0; 2; 4; 6; 8; 10; 12; 14; 16; 18; 20; 22]%nat ++ rcars [1; 3; 5; 7; 9; 11; 13; 15; 17; 19; 21]%nat.
Lemma pre_blocks : precarry = flat_map code preb.
Proof. reflexivity. Qed.
Definition box_mul : list itv := repeat (0, 14636698788954112) 23 ++ [(0, 0)].
Lemma box_mul_ok : match aexec (flat_map code preb) box_mul with Some A => box_ok A | None => false end = true.
Proof. vm_compute. reflexivity. Qed.

Lemma limbs32_ok : forall s, length s = 32%nat -> Forall byteZ s ->
  small25 (limbs32 s) /\ valn 12 (limbs32 s) = le s.
Proof.
  intros s Ls Hs. unfold limbs32.
  destruct (loaded s 11 load32 Hs) as (L & V & R & R11); [rewrite Ls; reflexivity|].
  split; [|exact V]. split; [exact L|]. intros i.
  destruct (Nat.lt_ge_cases i 11) as [Hi|Hi]; [specialize (R i Hi); lia|].
  destruct (Nat.eq_dec i 11) as [->|N].
  - pose proof (le_nonneg s Hs) as B. rewrite Ls in B.
    assert (le s / 2 ^ (21 * Z.of_nat 11) < 33554432).
    { apply Z.div_lt_upper_bound; [reflexivity|].
      change (2 ^ (21 * Z.of_nat 11) * 33554432) with (256 ^ Z.of_nat 32). apply B. }
    lia.
  - assert (E1 : get (map (limb s) load32) i = 0) by (apply nth_overflow; lia). rewrite E1. lia.
Qed.

Lemma muladd_core : forall a b c, small25 a -> small25 b -> small25 c ->
  match products a b c with Some s => option_map out32 (exec (precarry ++ core) s) | None => None end =
  Some (to_le 32 ((valn 12 a * valn 12 b + valn 12 c) mod L25519)).
Proof.
  intros a b c Ha Hb Hc. destruct (products_ok a b c Ha Hb Hc) as [-> B].
  pose proof (conv_val a b c (proj1 Ha) (proj1 Hb) (proj1 Hc)) as V.
  set (s := map (fun i => sumt (get c i) (terms a b i)) (seq 0 23) ++ [0]) in *.
  assert (Ls : length s = 24%nat) by (unfold s; rewrite app_length, map_length, seq_length; reflexivity).
  assert (G : gamma s box_mul).
  { split; [exact Ls|]. intros i. destruct (Nat.lt_ge_cases i 23) as [Hi|Hi].
    - assert (E : iget box_mul i = (0, 14636698788954112)).
      { unfold iget, box_mul. rewrite app_nth1 by (rewrite repeat_length; lia).
        rewrite nth_indep with (d' := (0, 14636698788954112)) by (rewrite repeat_length; lia). apply nth_repeat. }
      rewrite E. unfold inside. cbn [fst snd].
      assert (E' : get s i = sumt (get c i) (terms a b i)).
      { unfold s, get at 1. rewrite app_nth1 by (rewrite map_length, seq_length; lia).
        rewrite nth_indep with (d' := sumt (get c 0) (terms a b 0)) by (rewrite map_length, seq_length; lia).
        rewrite (map_nth (fun i => sumt (get c i) (terms a b i)) (seq 0 23) 0%nat i). rewrite seq_nth by lia. reflexivity. }
      rewrite E'. apply B.
    - assert (E2 : iget box_mul i = (0, 0)).
      { destruct (Nat.eq_dec i 23) as [->|]; [reflexivity|]. apply nth_overflow. change (length box_mul) with 24%nat. lia. }
      assert (E1 : get s i = 0).
      { destruct (Nat.eq_dec i 23) as [->|]; [|apply nth_overflow; lia].
        unfold s, get at 1. rewrite app_nth2; rewrite map_length, seq_length; [reflexivity|lia]. }
      rewrite E1, E2. unfold inside. cbn. lia. }
  pose proof box_mul_ok as K. destruct (aexec (flat_map code preb) box_mul) as [A1|] eqn:E; [|discriminate].
  destruct (blocks_ok preb 23 24 s box_mul A1 G E eq_refl) as (s1 & X1 & G1 & C1 & _).
  { rewrite Ls. apply livb_ok. reflexivity. }
  destruct (core_ok s1 A1 G1 K) as (s2 & X2 & Q & Q11 & W).
  rewrite exec_app, pre_blocks, X1, X2. cbn [option_map]. rewrite out32_ok by assumption. rewrite W, <- V.
  apply f_equal. apply f_equal. destruct C1 as [k C1]. rewrite C1. apply Z.mod_add. discriminate.
Qed.

Theorem sc_muladd_ok : forall a b c,
  length a = 32%nat -> Forall byteZ a -> length b = 32%nat -> Forall byteZ b -> length c = 32%nat -> Forall byteZ c ->
  sc_muladd a b c = Some (to_le 32 ((le a * le b + le c) mod L25519)).
Proof.
  intros a b c La Ha Lb Hb Lc Hc. unfold sc_muladd.
  destruct (limbs32_ok a La Ha) as [Sa Va]. destruct (limbs32_ok b Lb Hb) as [Sb Vb]. destruct (limbs32_ok c Lc Hc) as [Sc Vc].
  rewrite muladd_core by assumption. now rewrite Va, Vb, Vc.
Qed.

Theorem sc_mul_ok : forall a b, length a = 32%nat -> Forall byteZ a -> length b = 32%nat -> Forall byteZ b ->
  sc_mul a b = Some (to_le 32 ((le a * le b) mod L25519)).
Proof.
  intros a b La Ha Lb Hb. unfold sc_mul.
  destruct (limbs32_ok a La Ha) as [Sa Va]. destruct (limbs32_ok b Lb Hb) as [Sb Vb].
  assert (E : products (limbs32 a) (limbs32 b) [] = products (limbs32 a) (limbs32 b) (repeat 0 12)).
  { unfold products. apply f_equal. apply (f_equal (fun l => l ++ [Some 0])). apply map_ext. intros i.
    assert (get [] i = 0) as -> by (destruct i; reflexivity).
    assert (get (repeat 0 12) i = 0) as -> by (unfold get; apply nth_repeat). reflexivity. }
  rewrite E. rewrite muladd_core; try assumption.
  - rewrite Va, Vb. change (valn 12 (repeat 0 12)) with 0. now rewrite Z.add_0_r.
  - split; [reflexivity|]. intros i. unfold get. rewrite nth_repeat. lia.
Qed.

(** ** canonicity *)
Lemma canon_loop_ok : forall s, Forall byteZ s -> forall i, (i <= 32)%nat -> (i <= length s)%nat -> forall c n,
  0 <= c -> (n = 0 \/ n = 1) ->
  (canon_loop s i c n = 0 <-> c = 0 /\ (n = 0 \/ le (firstn i L_bytes) <= le (firstn i s))).
Proof.
  intros s Hs i. induction i as [|i IH]; intros Hi Hl c n Hc Hn.
  - cbn [canon_loop firstn le]. split; [intros ->; split; [reflexivity|right; lia]|tauto].
  - cbn [canon_loop].
    assert (Bx : byteZ (nth i s 0)) by (apply (proj1 (Forall_forall _ _) Hs), nth_In; lia).
    assert (HL : Forall byteZ L_bytes) by (repeat (constructor; [unfold byteZ; lia|]); constructor).
    assert (Bl : byteZ (nth i L_bytes 0)) by (apply (proj1 (Forall_forall _ _) HL), nth_In; change (length L_bytes) with 32%nat; lia).
    assert (SP : forall l, (i < length l)%nat -> firstn (S i) l = firstn i l ++ [nth i l 0]).
    { clear. induction i as [|i IH]; intros [|x l] H; cbn [length] in H; try lia; [reflexivity|].
      change (firstn (S (S i)) (x :: l)) with (x :: firstn (S i) l). rewrite IH by lia. reflexivity. }
    rewrite (SP s), (SP L_bytes) by (try (change (length L_bytes) with 32%nat); lia).
    rewrite !le_app, !firstn_length, !Nat.min_l by (try (change (length L_bytes) with 32%nat); lia).
    cbn [le]. set (x := nth i s 0) in *. set (l := nth i L_bytes 0) in *.
    pose proof (le_nonneg _ (Forall_firstn i _ Hs)) as R1. pose proof (le_nonneg _ (Forall_firstn i _ HL)) as R2.
    rewrite firstn_length, Nat.min_l in R1 by lia.
    rewrite firstn_length, Nat.min_l in R2 by (change (length L_bytes) with 32%nat; lia).
    set (W := 256 ^ Z.of_nat i) in *. assert (HW : 0 < W) by (apply Z.pow_pos_nonneg; lia).
    unfold byteZ in Bx, Bl.
    assert (Sx : Z.shiftr (x - l) 8 = if x <? l then -1 else 0).
    { rewrite Z.shiftr_div_pow2 by lia. change (2 ^ 8) with 256. destruct (Z.ltb_spec x l).
      - symmetry. apply (Z.div_unique_pos _ _ _ (x - l + 256)); lia.
      - apply Z.div_small. lia. }
    assert (Sn : Z.shiftr (Z.lxor x l - 1) 8 mod 256 = if x =? l then 255 else 0).
    { destruct (Z.eqb_spec x l) as [->|N]; [rewrite Z.lxor_nilpotent; reflexivity|].
      assert (Q : byteZ (Z.lxor x l)) by (apply byte_lxor; unfold byteZ; lia). unfold byteZ in Q.
      assert (Z.lxor x l <> 0) by (intros E; apply Z.lxor_eq in E; contradiction).
      rewrite Z.shiftr_div_pow2 by lia. change (2 ^ 8) with 256. rewrite Z.div_small by lia. reflexivity. }
    rewrite Sx, Sn.
    destruct Hn as [-> | ->].
    + rewrite Z.land_0_r, Z.land_0_l. change (0 mod 256) with 0. rewrite Z.lor_0_r.
      rewrite IH by (auto; lia). tauto.
    + destruct (Z.ltb_spec x l) as [Lt|Ge].
      * change (Z.land (-1) 1 mod 256) with 1.
        assert (NZ : 0 <= Z.lor c 1) by (apply Z.lor_nonneg; lia).
        rewrite IH; [|lia|lia|exact NZ|destruct (x =? l); [right|left]; reflexivity].
        split.
        -- intros [E _]. exfalso. apply Z.lor_eq_0_iff in E. lia.
        -- intros [_ [E|E]]; [discriminate|]. exfalso. nia.
      * change (Z.land 0 1 mod 256) with 0. rewrite Z.lor_0_r.
        destruct (Z.eqb_spec x l) as [->|N].
        -- change (Z.land 1 255) with 1. rewrite IH by (auto; lia).
           split; (intros [E [E'|E']]; [discriminate|]; split; [exact E|right; lia]).
        -- change (Z.land 1 0) with 0. rewrite IH by (auto; lia). split; [|tauto].
           intros [E _]. split; [exact E|]. right. nia.
Qed.

Theorem sc_canonical_ok : forall s, length s = 32%nat -> Forall byteZ s ->
  sc_is_canonical s = if le s <? L25519 then 1 else 0.
Proof.
  intros s L H. unfold sc_is_canonical.
  pose proof (canon_loop_ok s H 32 ltac:(lia) ltac:(lia) 0 1 ltac:(lia) ltac:(auto)) as Q.
  rewrite (firstn_all2 s) in Q by lia. change (le (firstn 32 L_bytes)) with L25519 in Q.
  destruct (Z.eqb_spec (canon_loop s 32 0 1) 0) as [E|E]; destruct (Z.ltb_spec (le s) L25519) as [Lt|Ge]; try reflexivity.
  - exfalso. apply Q in E. destruct E as [_ [E|E]]; [discriminate|lia].
  - exfalso. apply E. apply Q. split; [reflexivity|right; exact Ge].
Qed.
