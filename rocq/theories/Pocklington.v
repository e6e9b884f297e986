(** * Primality by Pocklington's criterion *)
From Coq Require Import ZArith Znumtheory Lia List Bool Permutation.
Import ListNotations.
Open Scope Z_scope.

(** ** Fermat's little theorem *)
Definition prod (l : list Z) : Z := fold_right Z.mul 1 l.
Lemma prod_perm : forall l l', Permutation l l' -> prod l = prod l'.
Proof. unfold prod. induction 1; cbn [fold_right]; congruence || lia. Qed.

Definition units (p : Z) : list Z := map Z.of_nat (seq 1 (Z.to_nat (p - 1))).
Lemma in_units : forall p x, In x (units p) <-> 1 <= x < p.
Proof.
  intros p x. unfold units. rewrite in_map_iff. split.
  - intros (i & <- & I). apply in_seq in I. lia.
  - intros H. exists (Z.to_nat x). rewrite Z2Nat.id by lia. split; [reflexivity|]. apply in_seq. lia.
Qed.
Lemma units_nodup : forall p, NoDup (units p).
Proof. intros p. apply FinFun.Injective_map_NoDup; [exact Nat2Z.inj|apply seq_NoDup]. Qed.

Lemma prod_scaled : forall p a l, 0 < p ->
  (p | prod (map (fun i => (a * i) mod p) l) - a ^ Z.of_nat (length l) * prod l).
Proof.
  intros p a l Hp. induction l as [|x l IH]; cbn [map length].
  - exists 0. reflexivity.
  - rewrite Nat2Z.inj_succ, Z.pow_succ_r by lia. cbn [prod fold_right]. fold (prod l).
    fold (prod (map (fun i => (a * i) mod p) l)).
    set (A := prod (map _ l)) in *. destruct IH as [w Hw].
    replace A with (w * p + a ^ Z.of_nat (length l) * prod l) by lia.
    rewrite (Z.mod_eq (a * x) p) by lia.
    set (q := a * x / p). set (t := a ^ Z.of_nat (length l)).
    exists (a * x * w - q * (w * p + t * prod l)). ring.
Qed.

Lemma prod_unit : forall p l, prime p -> (forall x, In x l -> 1 <= x < p) -> ~ (p | prod l).
Proof.
  intros p l Hp. pose proof (prime_ge_2 p Hp).
  induction l as [|x l IH]; intros H1 D; cbn [prod fold_right] in D.
  - apply Z.divide_1_r in D. lia.
  - apply prime_mult in D; [|exact Hp]. destruct D as [D|D].
    + pose proof (H1 x (or_introl eq_refl)). apply Z.divide_pos_le in D; lia.
    + apply IH; [|exact D]. intros y Hy. apply H1. right; exact Hy.
Qed.

Lemma fermat : forall a p, prime p -> ~ (p | a) -> (p | a ^ (p - 1) - 1).
Proof.
  intros a p Hp N. pose proof (prime_ge_2 p Hp).
  assert (U : forall x, 1 <= x < p -> 1 <= (a * x) mod p < p).
  { intros x Hx. pose proof (Z.mod_pos_bound (a * x) p ltac:(lia)).
    assert ((a * x) mod p <> 0); [|lia]. intros E. apply Z.mod_divide in E; [|lia].
    apply prime_mult in E; [|exact Hp]. destruct E as [E|E]; [contradiction|]. apply Z.divide_pos_le in E; lia. }
  assert (Pm : Permutation (map (fun i => (a * i) mod p) (units p)) (units p)).
  { apply NoDup_Permutation_bis.
    - assert (G : forall l, NoDup l -> (forall x, In x l -> 1 <= x < p) -> NoDup (map (fun i => (a * i) mod p) l)).
      { induction l as [|x l IH]; intros D R; cbn [map]; [constructor|]. inversion D; subst. constructor.
        - intros I. apply in_map_iff in I. destruct I as (y & E & Iy).
          assert (x = y); [|subst; contradiction].
          assert (D2 : (p | a * (y - x))).
          { apply Z.mod_divide; [lia|]. replace (a * (y - x)) with (a * y - a * x) by ring.
            rewrite Zminus_mod, E, Z.sub_diag. reflexivity. }
          apply prime_mult in D2; [|exact Hp]. destruct D2 as [D2|[w D2]]; [contradiction|].
          pose proof (R x (or_introl eq_refl)). pose proof (R y (or_intror Iy)).
          assert (w = 0) by nia. lia.
        - apply IH; [assumption|]. intros y Hy. apply R. right; exact Hy. }
      apply G; [apply units_nodup|]. intros x Hx. apply in_units. exact Hx.
    - rewrite map_length. lia.
    - intros y Hy. apply in_map_iff in Hy. destruct Hy as (x & <- & Hx). apply in_units. apply U. apply in_units. exact Hx. }
  pose proof (prod_scaled p a (units p) ltac:(lia)) as S.
  rewrite (prod_perm _ _ Pm) in S.
  assert (L : Z.of_nat (length (units p)) = p - 1).
  { unfold units. rewrite map_length, seq_length. lia. }
  rewrite L in S.
  replace (prod (units p) - a ^ (p - 1) * prod (units p)) with ((a ^ (p - 1) - 1) * - prod (units p)) in S by ring.
  apply prime_mult in S; [|exact Hp]. destruct S as [S|S]; [exact S|exfalso].
  apply (proj1 (Z.divide_opp_r _ _)) in S. revert S.
  apply prod_unit; [exact Hp|]. intros x Hx. apply in_units. exact Hx.
Qed.

(** ** Powers modulo d *)
Lemma pow_one : forall d b k, 0 <= k -> (d | b - 1) -> (d | b ^ k - 1).
Proof.
  intros d b k Hk D. revert k Hk. apply natlike_ind.
  - change (b ^ 0 - 1) with 0. apply Z.divide_0_r.
  - intros k Hk IH. rewrite Z.pow_succ_r by lia.
    replace (b * b ^ k - 1) with (b * (b ^ k - 1) + (b - 1)) by ring.
    apply Z.divide_add_r; [apply Z.divide_mul_r; exact IH|exact D].
Qed.

(** b^x = b^y = 1 and x, y without a common factor: b = 1 *)
Lemma pow_coprime : forall d b x y, 1 < d -> rel_prime b d -> 0 < x -> 0 < y -> rel_prime x y ->
  (d | b ^ x - 1) -> (d | b ^ y - 1) -> (d | b - 1).
Proof.
  intros d b x y Hd Hb Hx Hy R Dx Dy.
  destruct (rel_prime_bezout _ _ R) as [u v E].
  (* u' x = 1 + v' y with u', v' >= 0 *)
  set (t := Z.abs u + Z.abs v + 1).
  assert (Q : (u + t * y) * x = 1 + (t * x - v) * y) by (unfold t; nia).
  assert (U : 0 <= u + t * y) by (unfold t; nia). assert (V : 0 <= t * x - v) by (unfold t; nia).
  pose proof (pow_one d (b ^ x) _ U Dx) as A. pose proof (pow_one d (b ^ y) _ V Dy) as B.
  rewrite <- Z.pow_mul_r in A, B by lia.
  replace (x * (u + t * y)) with (1 + y * (t * x - v)) in A by lia.
  rewrite Z.pow_add_r, Z.pow_1_r in A by nia.
  set (w := b ^ (y * (t * x - v))) in *.
  replace (b - 1) with ((b * w - 1) - b * (w - 1)) by ring.
  apply Z.divide_sub_r; [exact A|apply Z.divide_mul_r; exact B].
Qed.

(** a prime divisor d of n has q | d - 1 *)
Lemma pock_divisor : forall n q r u v d, prime q -> (q | n - 1) -> 1 < n -> prime d -> (d | n) ->
  (n | 2 ^ (n - 1) - 1) -> (n | 2 ^ ((n - 1) / q) - r) -> u * (r - 1) + v * n = 1 -> (q | d - 1).
Proof.
  intros n q r u v d Hq [m Hm] Hn Hd Dn F1 F2 B.
  pose proof (prime_ge_2 q Hq). pose proof (prime_ge_2 d Hd).
  rewrite Hm, Z.div_mul in F2 by lia.
  assert (Hm0 : 0 < m) by nia.
  destruct (Zdivide_dec q (d - 1)) as [|N]; [assumption|exfalso].
  assert (R : rel_prime q (d - 1)) by (apply prime_rel_prime; assumption).
  assert (A : (d | 2 ^ (n - 1) - 1)) by (eapply Z.divide_trans; eassumption).
  assert (O : ~ (d | 2)).
  { intros D2. assert (D3 : (d | 2 ^ (n - 1))).
    { replace (n - 1) with (Z.succ (n - 2)) by lia. rewrite Z.pow_succ_r by lia. apply Z.divide_mul_l; exact D2. }
    assert (D4 : (d | 1)).
    { replace 1 with (2 ^ (n - 1) - (2 ^ (n - 1) - 1)) by ring. apply Z.divide_sub_r; assumption. }
    apply Z.divide_1_r in D4. lia. }
  assert (Fd : (d | 2 ^ (d - 1) - 1)) by (apply fermat; [exact Hd|exact O]).
  assert (C : (d | 2 ^ m - 1)).
  { apply (pow_coprime d (2 ^ m) q (d - 1)); try lia.
    - apply rel_prime_sym. apply prime_rel_prime; [exact Hd|]. intros D.
      apply O. clear - D Hd Hm0. revert D. 
      assert (G : forall k, 0 <= k -> (d | 2 ^ k) -> (d | 2)).
      { apply (natlike_ind (fun k => (d | 2 ^ k) -> (d | 2))).
        - intros D. change (2 ^ 0) with 1 in D. apply Z.divide_1_r in D. pose proof (prime_ge_2 d Hd). lia.
        - intros k Hk IH D. rewrite Z.pow_succ_r in D by lia. apply prime_mult in D; [|exact Hd]. destruct D; auto. }
      apply G. lia.
    - exact R.
    - rewrite <- Z.pow_mul_r by lia. rewrite <- Hm. exact A.
    - rewrite <- Z.pow_mul_r by lia. rewrite Z.mul_comm, Z.pow_mul_r by lia. apply pow_one; [lia|exact Fd]. }
  assert (C2 : (d | r - 1)).
  { replace (r - 1) with ((2 ^ m - 1) - (2 ^ m - r)) by ring. apply Z.divide_sub_r; [exact C|].
    exact (Z.divide_trans _ _ _ Dn F2). }
  assert (D1 : (d | 1)).
  { rewrite <- B. apply Z.divide_add_r; apply Z.divide_mul_r; assumption. }
  apply Z.divide_1_r in D1. lia.
Qed.

Lemma prime_divisor : forall n, 1 < n -> exists d, prime d /\ (d | n).
Proof.
  intros n. assert (0 <= n \/ n < 0) as [H|H] by lia; [|lia]. revert n H.
  apply (Z_lt_induction (fun n => 1 < n -> exists d, prime d /\ (d | n))).
  intros n IH Hn. destruct (prime_dec n) as [Y|N].
  - exists n. split; [exact Y|apply Z.divide_refl].
  - destruct (not_prime_divide n Hn N) as (d & Hd & D). destruct (IH d) as (e & He & E); [lia|lia|].
    exists e. split; [exact He|]. eapply Z.divide_trans; eassumption.
Qed.

Lemma prime_of_divisors : forall n, 1 < n -> (forall d, prime d -> (d | n) -> n < d * d) -> prime n.
Proof.
  intros n Hn H. destruct (prime_dec n) as [Y|N]; [exact Y|exfalso].
  destruct (not_prime_divide n Hn N) as (d & Hd & [e De]).
  assert (He : 1 < e) by nia.
  destruct (prime_divisor d) as (a & Pa & Da); [lia|]. destruct (prime_divisor e) as (b & Pb & Db); [lia|].
  assert (A : n < a * a). { apply H; [exact Pa|]. rewrite De. apply Z.divide_mul_r; exact Da. }
  assert (B : n < b * b). { apply H; [exact Pb|]. rewrite De. apply Z.divide_mul_l; exact Db. }
  pose proof (prime_ge_2 a Pa). pose proof (prime_ge_2 b Pb).
  apply Z.divide_pos_le in Da; [|lia]. apply Z.divide_pos_le in Db; [|lia].
  assert (AB : a * b <= e * d) by (rewrite (Z.mul_comm e d); apply Z.mul_le_mono_nonneg; lia).
  destruct (Z.le_gt_cases a b) as [L|L].
  - assert (a * a <= a * b) by (apply Z.mul_le_mono_nonneg_l; lia). lia.
  - assert (b * b <= a * b) by (apply Z.mul_le_mono_nonneg_r; lia). lia.
Qed.

(** ** The chain of squarings *)
Fixpoint chain (n r e : Z) (l : list (bool * Z * Z)) : option (Z * Z) :=
  match l with
  | [] => Some (r, e)
  | (b, k, r') :: l =>
      if r * r * (if b then 2 else 1) =? k * n + r' then chain n r' (2 * e + (if b then 1 else 0)) l
      else None
  end.
Lemma chain_ok : forall l n r e r' e', 0 <= e -> (n | 2 ^ e - r) -> chain n r e l = Some (r', e') ->
  (n | 2 ^ e' - r').
Proof.
  induction l as [|[[b k] r1] l IH]; intros n r e r' e' He D H; cbn [chain] in H.
  - injection H as -> ->. exact D.
  - destruct (r * r * (if b then 2 else 1) =? k * n + r1) eqn:E; [|discriminate]. apply Z.eqb_eq in E.
    apply (IH n r1 _ r' e') in H; [exact H|destruct b; lia|].
    destruct D as [w Hw].
    assert (S : 2 ^ (2 * e + (if b then 1 else 0)) = 2 ^ e * 2 ^ e * (if b then 2 else 1)).
    { rewrite Z.pow_add_r by (destruct b; lia). replace (2 * e) with (e + e) by lia. rewrite Z.pow_add_r by lia.
      destruct b; reflexivity. }
    rewrite S. replace (2 ^ e) with (r + w * n) by lia.
    exists (k + (if b then 2 else 1) * (2 * r * w + w * w * n)).
    transitivity (r * r * (if b then 2 else 1) - r1 + (if b then 2 else 1) * (2 * r * w + w * w * n) * n); [ring|].
    rewrite E. ring.
Qed.

Definition full_check (n : Z) (l : list (bool * Z * Z)) : bool :=
  match chain n 2 1 l with Some (r, e) => (r =? 1) && (e =? n - 1) | None => false end.
Definition part_check (n q : Z) (l : list (bool * Z * Z)) (uv : Z * Z) : bool :=
  match chain n 2 1 l with
  | Some (r, e) => (e * q =? n - 1) && (fst uv * (r - 1) + snd uv * n =? 1)
  | None => false
  end.
Lemma start_ok : forall n, (n | 2 ^ 1 - 2).
Proof. intros n. exists 0. reflexivity. Qed.

Lemma full_ok : forall n l, full_check n l = true -> (n | 2 ^ (n - 1) - 1).
Proof.
  intros n l H. unfold full_check in H. destruct (chain n 2 1 l) as [[r e]|] eqn:C; [|discriminate].
  apply andb_prop in H. destruct H as [A B]. apply Z.eqb_eq in A, B. subst r e.
  exact (chain_ok l n 2 1 _ _ ltac:(lia) (start_ok n) C).
Qed.
Lemma part_ok : forall n q l uv d, part_check n q l uv = true -> 1 < n -> prime q -> prime d -> (d | n) ->
  (n | 2 ^ (n - 1) - 1) -> (q | d - 1).
Proof.
  intros n q l uv d H Hn Hq Hd Dn F. unfold part_check in H.
  destruct (chain n 2 1 l) as [[r e]|] eqn:C; [|discriminate].
  apply andb_prop in H. destruct H as [A B]. apply Z.eqb_eq in A, B.
  pose proof (prime_ge_2 q Hq).
  apply (pock_divisor n q r (fst uv) (snd uv) d); try assumption.
  - exists e. lia.
  - rewrite <- A, Z.div_mul by lia. exact (chain_ok l n 2 1 _ _ ltac:(lia) (start_ok n) C).
Qed.

Lemma pock1 : forall n q full part uv, prime q -> (1 <? n) && (n <? q * q) = true ->
  full_check n full = true -> part_check n q part uv = true -> prime n.
Proof.
  intros n q full part uv Hq S F P. apply andb_prop in S. destruct S as [S1 S2]. apply Z.ltb_lt in S1, S2.
  apply prime_of_divisors; [exact S1|]. intros d Hd Dn.
  pose proof (part_ok n q part uv d P S1 Hq Hd Dn (full_ok n full F)) as D.
  pose proof (prime_ge_2 d Hd). pose proof (prime_ge_2 q Hq). apply Z.divide_pos_le in D; [|lia]. nia.
Qed.
Lemma pock2 : forall n q1 q2 full part1 uv1 part2 uv2, prime q1 -> prime q2 ->
  (1 <? n) && (n <? (q1 * q2) * (q1 * q2)) && negb (q1 =? q2) = true ->
  full_check n full = true -> part_check n q1 part1 uv1 = true -> part_check n q2 part2 uv2 = true -> prime n.
Proof.
  intros n q1 q2 full part1 uv1 part2 uv2 Hq1 Hq2 S F P1 P2.
  apply andb_prop in S. destruct S as [S S3]. apply andb_prop in S. destruct S as [S1 S2].
  apply Z.ltb_lt in S1, S2. apply negb_true_iff in S3. apply Z.eqb_neq in S3.
  apply prime_of_divisors; [exact S1|]. intros d Hd Dn.
  pose proof (part_ok n q1 part1 uv1 d P1 S1 Hq1 Hd Dn (full_ok n full F)) as D1.
  pose proof (part_ok n q2 part2 uv2 d P2 S1 Hq2 Hd Dn (full_ok n full F)) as D2.
  pose proof (prime_ge_2 d Hd). pose proof (prime_ge_2 q1 Hq1). pose proof (prime_ge_2 q2 Hq2).
  assert (R : rel_prime q1 q2).
  { apply prime_rel_prime; [exact Hq1|]. intros D. apply prime_div_prime in D; auto. }
  assert (D : (q1 * q2 | d - 1)).
  { destruct D1 as [w Hw]. rewrite Hw in D2 |- *.
    rewrite Z.mul_comm in D2. apply Gauss in D2; [|apply rel_prime_sym; exact R].
    destruct D2 as [z Hz]. exists z. rewrite Hz. ring. }
  apply Z.divide_pos_le in D; [|lia].
  assert (0 < q1 * q2) by nia. nia.
Qed.

(** ** Small primes by division *)
Definition trial (n : Z) (k : nat) : bool :=
  (1 <? n) && (n <? (Z.of_nat k + 2) * (Z.of_nat k + 2)) &&
  forallb (fun i => negb (n mod (Z.of_nat i + 2) =? 0)) (seq 0 k).
Lemma trial_ok : forall n k, trial n k = true -> prime n.
Proof.
  intros n k H. unfold trial in H. apply andb_prop in H. destruct H as [S H]. apply andb_prop in S. destruct S as [S1 S2].
  apply Z.ltb_lt in S1, S2. apply prime_of_divisors; [exact S1|]. intros d Hd Dn.
  pose proof (prime_ge_2 d Hd).
  destruct (Z_lt_le_dec d (Z.of_nat k + 2)) as [L|L]; [exfalso|nia].
  rewrite forallb_forall in H. specialize (H (Z.to_nat (d - 2))).
  rewrite Z2Nat.id in H by lia. replace (d - 2 + 2) with d in H by lia.
  rewrite (Zdivide_mod n d Dn) in H. cbn in H. discriminate H. apply in_seq. lia.
Qed.
