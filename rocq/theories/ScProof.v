(** * ScProof: the scalar arithmetic never overflows and reduces modulo the
    group order.  An interval analysis of the instruction lists, proved sound
    once, gives the ranges; the value is tracked modulo the order. *)
From Coq Require Import ZArith List Bool Lia Ring.
From Verif Require ZUtil.
From Verif Require Import X25519Spec Curve25519Proof Curve25519Bytes ScModel.
Import ListNotations.
Open Scope Z_scope.

(** order of the base point *)
Definition L25519 : Z := 2 ^ 252 + 27742317777372353535851937790883648493.

(** ** states *)
Lemma set_length : forall s i v, length (set s i v) = length s.
Proof. induction s as [|x s IH]; intros [|i] v; cbn [set length]; auto. Qed.
Lemma get_set_same : forall s i v, (i < length s)%nat -> get (set s i v) i = v.
Proof.
  unfold get. induction s as [|x s IH]; intros [|i] v H; cbn [set length nth] in *; try lia; auto. apply IH. lia.
Qed.
Lemma get_set_other : forall s i j v, i <> j -> get (set s i v) j = get s j.
Proof.
  unfold get. induction s as [|x s IH]; intros [|i] [|j] v H; cbn [set nth]; auto; try congruence.
Qed.

(** the value of the first [n] limbs *)
Fixpoint valn (n : nat) (s : list Z) : Z :=
  match n with O => 0 | S n => valn n s + get s n * 2 ^ (21 * Z.of_nat n) end.

Lemma valn_set_high : forall n s i v, (n <= i)%nat -> valn n (set s i v) = valn n s.
Proof.
  induction n as [|n IH]; intros s i v H; [reflexivity|]. cbn [valn].
  rewrite IH, get_set_other by lia. reflexivity.
Qed.
Lemma valn_set : forall n s i v, (i < n)%nat -> (i < length s)%nat ->
  valn n (set s i v) = valn n s + (v - get s i) * 2 ^ (21 * Z.of_nat i).
Proof.
  induction n as [|n IH]; intros s i v H L; [lia|]. cbn [valn].
  destruct (Nat.eq_dec i n) as [->|N].
  - rewrite valn_set_high, get_set_same by lia. ring.
  - rewrite IH, get_set_other by lia. ring.
Qed.

(** ** intervals *)
Definition itv : Type := (Z * Z)%type.
Definition iget (A : list itv) (i : nat) : itv := nth i A (0, 0).
Fixpoint iset (A : list itv) (i : nat) (v : itv) : list itv :=
  match A, i with
  | [], _ => []
  | _ :: A, O => v :: A
  | x :: A, S i => x :: iset A i v
  end.
Definition inside (x : Z) (a : itv) : Prop := fst a <= x <= snd a.
Definition gamma (s : list Z) (A : list itv) : Prop :=
  length s = length A /\ forall i, inside (get s i) (iget A i).

Lemma iget_iset_same : forall A i v, (i < length A)%nat -> iget (iset A i v) i = v.
Proof.
  unfold iget. induction A as [|x A IH]; intros [|i] v H; cbn [iset length nth] in *; try lia; auto. apply IH. lia.
Qed.
Lemma iget_iset_other : forall A i j v, i <> j -> iget (iset A i v) j = iget A j.
Proof.
  unfold iget. induction A as [|x A IH]; intros [|i] [|j] v H; cbn [iset nth]; auto; try congruence.
Qed.
Lemma iset_length : forall A i v, length (iset A i v) = length A.
Proof. induction A as [|x A IH]; intros [|i] v; cbn [iset length]; auto. Qed.

Lemma gamma_set : forall s A i v a, gamma s A -> inside v a -> gamma (set s i v) (iset A i a).
Proof.
  intros s A i v a [L G] H. split; [now rewrite set_length, iset_length|].
  intros j. destruct (Nat.eq_dec i j) as [->|N].
  - destruct (Nat.lt_ge_cases j (length s)) as [Lj|Lj].
    + rewrite get_set_same, iget_iset_same by lia. exact H.
    + assert (E1 : get (set s j v) j = 0) by (apply nth_overflow; rewrite set_length; lia).
      assert (E2 : iget (iset A j a) j = (0, 0)) by (apply nth_overflow; rewrite iset_length; lia).
      rewrite E1, E2. unfold inside. cbn. lia.
  - rewrite get_set_other, iget_iset_other by assumption. apply G.
Qed.

(** interval arithmetic *)
Definition iadd (a b : itv) : itv := (fst a + fst b, snd a + snd b).
Definition isub (a b : itv) : itv := (fst a - snd b, snd a - fst b).
Definition ishr (a : itv) : itv := (Z.shiftr (fst a) 21, Z.shiftr (snd a) 21).
Definition iscale (a : itv) (c : Z) : itv := (fst a * c, snd a * c).
Definition ichk (a : itv) : bool := chk (fst a) && chk (snd a).

Definition aexec1 (ins : instr) (A : list itv) : option (list itv) :=
  match ins with
  | Mac d k c =>
      let p := iscale (iget A k) c in let r := iadd (iget A d) p in
      if (0 <=? c) && ichk p && ichk r && negb (Nat.eqb d k) && (Nat.ltb d (length A)) then Some (iset A d r) else None
  | Msu d k c =>
      let p := iscale (iget A k) c in let r := isub (iget A d) p in
      if (0 <=? c) && ichk p && ichk r && negb (Nat.eqb d k) && (Nat.ltb d (length A)) then Some (iset A d r) else None
  | RCar i =>
      let q := iadd (iget A i) (1048576, 1048576) in
      let c := ishr q in let n := iadd (iget A (S i)) c in
      if ichk q && ichk n && ichk (iscale c 2097152) && Nat.ltb (S i) (length A)
      then Some (iset (iset A (S i) n) i (-1048576, 1048575)) else None
  | Car i =>
      let c := ishr (iget A i) in let n := iadd (iget A (S i)) c in
      if ichk n && ichk (iscale c 2097152) && Nat.ltb (S i) (length A)
      then Some (iset (iset A (S i) n) i (0, 2097151)) else None
  | Zero i => if Nat.ltb i (length A) then Some (iset A i (0, 0)) else None
  end.
Fixpoint aexec (p : list instr) (A : list itv) : option (list itv) :=
  match p with
  | [] => Some A
  | i :: p => match aexec1 i A with Some A => aexec p A | None => None end
  end.

Lemma chk_iff : forall x, chk x = true <-> -9223372036854775808 <= x <= 9223372036854775807.
Proof. intros x. unfold chk. rewrite andb_true_iff, !Z.leb_le. lia. Qed.
Lemma ichk_ok : forall x a, inside x a -> ichk a = true -> chk x = true.
Proof.
  intros x a [H1 H2] C. unfold ichk in C. apply andb_prop in C. destruct C as [C1 C2].
  apply chk_iff in C1. apply chk_iff in C2. apply chk_iff. lia.
Qed.
Lemma scale_in : forall x a c, inside x a -> 0 <= c -> inside (x * c) (iscale a c).
Proof.
  intros x a c [H1 H2] Hc. split; cbn [iscale fst snd]; apply Z.mul_le_mono_nonneg_r; assumption.
Qed.
Lemma add_in : forall x y a b, inside x a -> inside y b -> inside (x + y) (iadd a b).
Proof. intros x y a b [? ?] [? ?]. split; cbn [iadd fst snd]; lia. Qed.
Lemma sub_in : forall x y a b, inside x a -> inside y b -> inside (x - y) (isub a b).
Proof. intros x y a b [? ?] [? ?]. split; cbn [isub fst snd]; lia. Qed.
Lemma shr_in : forall x a, inside x a -> inside (Z.shiftr x 21) (ishr a).
Proof.
  intros x a [? ?]. unfold ishr. rewrite !Z.shiftr_div_pow2 by lia.
  split; cbn [fst snd]; rewrite ?Z.shiftr_div_pow2 by lia; apply Z.div_le_mono; lia.
Qed.

(** what an instruction does to the value of the first [n] limbs *)
Definition dval (ins : instr) (s : list Z) : Z :=
  match ins with
  | Mac d k c => get s k * c * 2 ^ (21 * Z.of_nat d)
  | Msu d k c => - (get s k * c * 2 ^ (21 * Z.of_nat d))
  | _ => 0
  end.
Definition top (ins : instr) : nat :=
  match ins with Mac d _ _ => S d | Msu d _ _ => S d | RCar i => S (S i) | Car i => S (S i) | Zero _ => 0 end.

Ltac bools := repeat match goal with
  | H : _ && _ = true |- _ => apply andb_prop in H; destruct H
  | H : negb _ = true |- _ => apply negb_true_iff in H
  | H : Nat.eqb _ _ = false |- _ => apply Nat.eqb_neq in H
  | H : Nat.ltb _ _ = true |- _ => apply Nat.ltb_lt in H
  | H : (_ <=? _) = true |- _ => apply Z.leb_le in H
  end.

Lemma pow21 : forall i, 2 ^ (21 * Z.of_nat (S i)) = 2097152 * 2 ^ (21 * Z.of_nat i).
Proof.
  intros i. replace (21 * Z.of_nat (S i)) with (21 + 21 * Z.of_nat i) by lia.
  rewrite Z.pow_add_r by lia. reflexivity.
Qed.

Lemma exec1_ok : forall ins s A A', gamma s A -> aexec1 ins A = Some A' ->
  exists s', exec1 ins s = Some s' /\ gamma s' A' /\
    forall n, match ins with Zero i => (n <= i)%nat | _ => (top ins <= n)%nat end ->
    valn n s' = valn n s + dval ins s.
Proof.
  intros ins s A A' G H. pose proof G as [L I].
  destruct ins as [d k c|d k c|i|i|i]; cbn [aexec1] in H.
  - destruct ((0 <=? c) && _ && _ && _ && _) eqn:C in H; [|discriminate]. injection H as <-. bools.
    assert (P : inside (get s k * c) (iscale (iget A k) c)) by (apply scale_in; auto).
    assert (R : inside (get s d + get s k * c) (iadd (iget A d) (iscale (iget A k) c))) by (apply add_in; auto).
    exists (set s d (get s d + get s k * c)). cbn [exec1].
    rewrite (ichk_ok _ _ P), (ichk_ok _ _ R) by assumption.
    split; [reflexivity|]. split; [now apply gamma_set|].
    intros n Hn. cbn [top] in Hn. rewrite valn_set by lia. cbn [dval]. ring.
  - destruct ((0 <=? c) && _ && _ && _ && _) eqn:C in H; [|discriminate]. injection H as <-. bools.
    assert (P : inside (get s k * c) (iscale (iget A k) c)) by (apply scale_in; auto).
    assert (R : inside (get s d - get s k * c) (isub (iget A d) (iscale (iget A k) c))) by (apply sub_in; auto).
    exists (set s d (get s d - get s k * c)). cbn [exec1].
    rewrite (ichk_ok _ _ P), (ichk_ok _ _ R) by assumption.
    split; [reflexivity|]. split; [now apply gamma_set|].
    intros n Hn. cbn [top] in Hn. rewrite valn_set by lia. cbn [dval]. ring.
  - destruct (ichk _ && _ && _ && _) eqn:C in H; [|discriminate]. injection H as <-. bools.
    assert (Q : inside (get s i + 1048576) (iadd (iget A i) (1048576, 1048576)))
      by (apply add_in; [auto|unfold inside; cbn; lia]).
    pose proof (shr_in _ _ Q) as Sh. pose proof (add_in _ _ _ _ (I (S i)) Sh) as N.
    assert (M : inside (Z.shiftr (get s i + 1048576) 21 * 2097152) (iscale (ishr (iadd (iget A i) (1048576, 1048576))) 2097152))
      by (apply scale_in; [exact Sh|lia]).
    set (cy := Z.shiftr (get s i + 1048576) 21) in *.
    assert (D : -1048576 <= get s i - cy * 2097152 <= 1048575).
    { unfold cy. rewrite Z.shiftr_div_pow2 by lia. change (2 ^ 21) with 2097152.
      pose proof (Z.div_mod (get s i + 1048576) 2097152 ltac:(lia)).
      pose proof (Z.mod_pos_bound (get s i + 1048576) 2097152 ltac:(lia)). lia. }
    exists (set (set s (S i) (get s (S i) + cy)) i (get s i - cy * 2097152)). cbn [exec1]. fold cy.
    rewrite (ichk_ok _ _ Q), (ichk_ok _ _ N), (ichk_ok _ _ M) by assumption.
    rewrite (proj2 (chk_iff (get s i - cy * 2097152))) by lia.
    split; [reflexivity|]. split.
    + apply gamma_set; [now apply gamma_set|exact D].
    + intros n Hn. cbn [top] in Hn.
      rewrite valn_set by (rewrite ?set_length; lia). rewrite valn_set by lia. rewrite get_set_other by lia.
      rewrite pow21. cbn [dval]. ring.
  - destruct (ichk _ && _ && _) eqn:C in H; [|discriminate]. injection H as <-. bools.
    pose proof (shr_in _ _ (I i)) as Sh. pose proof (add_in _ _ _ _ (I (S i)) Sh) as N.
    assert (M : inside (Z.shiftr (get s i) 21 * 2097152) (iscale (ishr (iget A i)) 2097152))
      by (apply scale_in; [exact Sh|lia]).
    set (cy := Z.shiftr (get s i) 21) in *.
    assert (D : 0 <= get s i - cy * 2097152 <= 2097151).
    { unfold cy. rewrite Z.shiftr_div_pow2 by lia. change (2 ^ 21) with 2097152.
      pose proof (Z.div_mod (get s i) 2097152 ltac:(lia)).
      pose proof (Z.mod_pos_bound (get s i) 2097152 ltac:(lia)). lia. }
    exists (set (set s (S i) (get s (S i) + cy)) i (get s i - cy * 2097152)). cbn [exec1]. fold cy.
    rewrite (ichk_ok _ _ N), (ichk_ok _ _ M) by assumption.
    rewrite (proj2 (chk_iff (get s i - cy * 2097152))) by lia.
    split; [reflexivity|]. split.
    + apply gamma_set; [now apply gamma_set|exact D].
    + intros n Hn. cbn [top] in Hn.
      rewrite valn_set by (rewrite ?set_length; lia). rewrite valn_set by lia. rewrite get_set_other by lia.
      rewrite pow21. cbn [dval]. ring.
  - destruct (Nat.ltb _ _) eqn:C in H; [|discriminate]. injection H as <-.
    exists (set s i 0). cbn [exec1 dval]. split; [reflexivity|]. split; [apply gamma_set; [exact G|unfold inside; cbn; lia]|].
    intros n Hn. rewrite valn_set_high by lia. ring.
Qed.

Lemma exec_app : forall p q s, exec (p ++ q) s = match exec p s with Some s => exec q s | None => None end.
Proof. induction p as [|i p IH]; intros q s; [reflexivity|]. cbn [app exec]. destruct (exec1 i s); auto. Qed.
Lemma aexec_app : forall p q s, aexec (p ++ q) s = match aexec p s with Some s => aexec q s | None => None end.
Proof. induction p as [|i p IH]; intros q s; [reflexivity|]. cbn [app aexec]. destruct (aexec1 i s); auto. Qed.

(** ** blocks: a carry, or the six lines that fold limb [k] down *)
Inductive block : Type := BCar (r : bool) (i : nat) | BFold (k : nat) | BZero (i : nat).
Definition code (b : block) : list instr :=
  match b with
  | BCar true i => [RCar i]
  | BCar false i => [Car i]
  | BFold k => [Mac (k - 12) k 666643; Mac (k - 11) k 470296; Mac (k - 10) k 654183;
                Msu (k - 9) k 997805; Mac (k - 8) k 136657; Msu (k - 7) k 683901]
  | BZero i => [Zero i]
  end.
(** number of live limbs after a block, if the block is in order *)
Definition live (b : block) (n : nat) : option nat :=
  match b with
  | BCar _ i => if Nat.leb (i + 2) n then Some n else None
  | BFold k => if Nat.eqb n (S k) && Nat.leb 12 k then Some k else None
  | BZero i => if Nat.eqb n i then Some (S i) else None
  end.

Lemma exec1_keep : forall ins s s' j, exec1 ins s = Some s' ->
  match ins with Mac d _ _ => d <> j | Msu d _ _ => d <> j | _ => False end -> get s' j = get s j.
Proof.
  intros [d k c|d k c|i|i|i] s s' j H N; try contradiction; cbn [exec1] in H;
    (destruct (chk _ && chk _) in H; [|discriminate]); injection H as <-; now apply get_set_other.
Qed.

Definition congL (a b : Z) : Prop := exists k, a = b + k * L25519.
Lemma congL_trans : forall a b c, congL a b -> congL b c -> congL a c.
Proof. intros a b c [k ->] [l ->]. exists (k + l). ring. Qed.
Lemma congL_eq : forall a b, a = b -> congL a b.
Proof. intros a b ->. exists 0. ring. Qed.

Lemma block_ok : forall b n n' s A A', gamma s A -> aexec (code b) A = Some A' -> live b n = Some n' ->
  (n' <= length s)%nat ->
  exists s', exec (code b) s = Some s' /\ gamma s' A' /\
    (valn n' s' = valn n s + match b with BFold k => - (get s k * 2 ^ (21 * Z.of_nat (k - 12)) * L25519) | _ => 0 end).
Proof.
  intros b n n' s A A' G H Hl Hlen. destruct b as [r i|k|i]; cbn [live] in Hl.
  - destruct (Nat.leb_spec (i + 2) n) as [Le|]; [|discriminate]. injection Hl as <-.
    assert (E : exists ins, code (BCar r i) = [ins] /\ dval ins s = 0 /\ top ins = (i + 2)%nat /\
                match ins with Zero i => False | _ => True end).
    { destruct r; eexists; (split; [reflexivity|]); cbn; repeat split; lia. }
    destruct E as (ins & Ec & Ed & Et & Ez). rewrite Ec in *. cbn [aexec exec] in *.
    destruct (aexec1 ins A) as [A1|] eqn:EA; [|discriminate]. injection H as <-.
    destruct (exec1_ok ins s A A1 G EA) as (s' & -> & G' & V).
    exists s'. split; [reflexivity|]. split; [exact G'|]. rewrite V, Ed; [reflexivity|].
    destruct ins; try contradiction; lia.
  - destruct (Nat.eqb_spec n (S k)) as [->|]; [|discriminate].
    destruct (Nat.leb_spec 12 k) as [Le|]; [|discriminate]. injection Hl as <-.
    cbn [code aexec exec] in *.
    destruct (aexec1 (Mac (k - 12) k 666643) A) as [A1|] eqn:E1; [|discriminate].
    destruct (exec1_ok _ _ _ _ G E1) as (s1 & X1 & G1 & V1). rewrite X1. specialize (V1 k ltac:(cbn [top]; lia)).
    pose proof (exec1_keep _ _ _ k X1 ltac:(cbn; lia)) as K1.
    destruct (aexec1 (Mac (k - 11) k 470296) A1) as [A2|] eqn:E2; [|discriminate].
    destruct (exec1_ok _ _ _ _ G1 E2) as (s2 & X2 & G2 & V2). rewrite X2. specialize (V2 k ltac:(cbn [top]; lia)).
    pose proof (exec1_keep _ _ _ k X2 ltac:(cbn; lia)) as K2.
    destruct (aexec1 (Mac (k - 10) k 654183) A2) as [A3|] eqn:E3; [|discriminate].
    destruct (exec1_ok _ _ _ _ G2 E3) as (s3 & X3 & G3 & V3). rewrite X3. specialize (V3 k ltac:(cbn [top]; lia)).
    pose proof (exec1_keep _ _ _ k X3 ltac:(cbn; lia)) as K3.
    destruct (aexec1 (Msu (k - 9) k 997805) A3) as [A4|] eqn:E4; [|discriminate].
    destruct (exec1_ok _ _ _ _ G3 E4) as (s4 & X4 & G4 & V4). rewrite X4. specialize (V4 k ltac:(cbn [top]; lia)).
    pose proof (exec1_keep _ _ _ k X4 ltac:(cbn; lia)) as K4.
    destruct (aexec1 (Mac (k - 8) k 136657) A4) as [A5|] eqn:E5; [|discriminate].
    destruct (exec1_ok _ _ _ _ G4 E5) as (s5 & X5 & G5 & V5). rewrite X5. specialize (V5 k ltac:(cbn [top]; lia)).
    pose proof (exec1_keep _ _ _ k X5 ltac:(cbn; lia)) as K5.
    destruct (aexec1 (Msu (k - 7) k 683901) A5) as [A6|] eqn:E6; [|discriminate].
    destruct (exec1_ok _ _ _ _ G5 E6) as (s6 & X6 & G6 & V6). rewrite X6. specialize (V6 k ltac:(cbn [top]; lia)).
    injection H as <-. exists s6. split; [reflexivity|]. split; [exact G6|].
    rewrite V6, V5, V4, V3, V2, V1. cbn [dval valn].
    rewrite K5, K4, K3, K2, K1.
    replace (k - 11)%nat with (S (k - 12)) by lia. replace (k - 10)%nat with (S (S (k - 12))) by lia.
    replace (k - 9)%nat with (S (S (S (k - 12)))) by lia. replace (k - 8)%nat with (S (S (S (S (k - 12))))) by lia.
    replace (k - 7)%nat with (S (S (S (S (S (k - 12)))))) by lia.
    rewrite !pow21.
    replace (2 ^ (21 * Z.of_nat k)) with (2 ^ 252 * 2 ^ (21 * Z.of_nat (k - 12)))
      by (rewrite <- Z.pow_add_r by lia; apply (f_equal (Z.pow 2)); lia).
    unfold L25519. generalize (2 ^ (21 * Z.of_nat (k - 12))). intros w.
    change (2 ^ 252) with 7237005577332262213973186563042994240829374041602535252466099000494570602496. ring.
  - destruct (Nat.eqb_spec n i) as [->|]; [|discriminate]. injection Hl as <-.
    cbn [code aexec exec] in *. destruct (aexec1 (Zero i) A) as [A1|] eqn:E; [|discriminate]. injection H as <-.
    destruct (exec1_ok _ _ _ _ G E) as (s' & X & G' & V). rewrite X.
    exists s'. split; [reflexivity|]. split; [exact G'|]. cbn [valn]. rewrite V by lia. cbn [dval].
    cbn [exec1] in X. injection X as <-. rewrite get_set_same by lia. ring.
Qed.

Fixpoint lives (bs : list block) (n : nat) : option nat :=
  match bs with [] => Some n | b :: bs => match live b n with Some n => lives bs n | None => None end end.

Lemma live_le : forall b n n', live b n = Some n' -> (n' <= S n)%nat.
Proof.
  intros [r i|k|i] n n' H; cbn in H.
  - destruct (Nat.leb _ _); [injection H as <-; lia|discriminate].
  - destruct (_ && _) eqn:E; [|discriminate]. injection H as <-. bools. apply Nat.eqb_eq in H. lia.
  - destruct (Nat.eqb_spec n i); [|discriminate]. injection H as <-. lia.
Qed.

Lemma blocks_ok : forall bs n n' s A A', gamma s A -> aexec (flat_map code bs) A = Some A' ->
  lives bs n = Some n' ->
  (forall pre b post m, bs = pre ++ b :: post -> lives (pre ++ [b]) n = Some m -> (m <= length s)%nat) ->
  exists s', exec (flat_map code bs) s = Some s' /\ gamma s' A' /\ congL (valn n' s') (valn n s) /\
    (forallb (fun b => match b with BCar _ _ => true | _ => false end) bs = true -> valn n' s' = valn n s).
Proof.
  induction bs as [|b bs IH]; intros n n' s A A' G H Hl Hlen.
  - cbn in *. injection H as <-. injection Hl as <-. exists s. repeat split; auto; try apply G. apply congL_eq; reflexivity.
  - cbn [flat_map lives] in *. rewrite aexec_app in H. rewrite exec_app.
    destruct (aexec (code b) A) as [A1|] eqn:E; [|discriminate].
    destruct (live b n) as [n1|] eqn:Ln; [|discriminate].
    destruct (block_ok b n n1 s A A1 G E Ln) as (s1 & X & G1 & V).
    { apply (Hlen [] b bs n1); [reflexivity|]. cbn. now rewrite Ln. }
    assert (Lq : length s1 = length s).
    { destruct G1 as [-> _]. destruct G as [-> _]. clear - E. revert A A1 E.
      assert (Q : forall ins A A', aexec1 ins A = Some A' -> length A' = length A).
      { intros [d k c|d k c|i|i|i] A A' H; cbn [aexec1] in H; cbv zeta in H;
          match type of H with (if ?c then _ else _) = _ => destruct c; [|discriminate] end;
          injection H as <-; now rewrite ?iset_length. }
      generalize (code b). induction l as [|i l IH]; intros A A1 E; cbn in E; [injection E as <-; reflexivity|].
      destruct (aexec1 i A) as [A2|] eqn:E2; [|discriminate]. rewrite (IH _ _ E). eapply Q; eauto. }
    rewrite X. destruct (IH n1 n' s1 A1 A' G1 H Hl) as (s' & X' & G' & C & V').
    { intros pre b' post m -> Hm. rewrite Lq. apply (Hlen (b :: pre) b' post m); [reflexivity|].
      cbn [app lives]. now rewrite Ln. }
    exists s'. split; [exact X'|]. split; [exact G'|]. split.
    + eapply congL_trans; [exact C|]. rewrite V. destruct b as [r i|k|i].
      * exists 0. ring.
      * eexists (- (get s k * 2 ^ (21 * Z.of_nat (k - 12)))). ring.
      * exists 0. ring.
    + cbn [forallb]. intros F. apply andb_prop in F. destruct F as [F1 F2]. rewrite (V' F2), V.
      destruct b; try discriminate. ring.
Qed.
