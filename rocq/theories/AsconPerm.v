(** The permutation code is Ascon-p of SP 800-232. *)
From Verif Require Import Bytes Words KeccakSpec AsconSpec AsconModel KeccakProof KeccakBytes.

Definition words5 (s : list Z) : Prop := length s = 5%nat /\ Forall w64 s.
Definition aagrees (s : list Z) (a : astate) : Prop :=
  forall i j, (i < 5)%nat -> 0 <= j < 64 -> Z.testbit (nth i s 0) j = a i j.

Lemma list5 : forall (s : list Z), length s = 5%nat -> exists a b c d e, s = [a; b; c; d; e].
Proof.
  intros s H. do 5 (destruct s as [|? s]; [discriminate H|]). destruct s; [|discriminate H].
  repeat eexists.
Qed.

Lemma w64_nn : forall x, w64 x -> 0 <= x.
Proof. intros x H; apply H. Qed.
Ltac w64s := repeat first [assumption | apply w64_not | apply w64_lxor | apply w64_ror
  | apply w64_land | apply w64_nn ].

(** The substitution layer of the code, before the diffusion. *)
Definition subst_words (s0 s1 s2 s3 s4 c : Z) : list Z :=
      let s2 := Z.lxor s2 c in
      let s0 := Z.lxor s0 s4 in
      let s4 := Z.lxor s4 s3 in
      let s2 := Z.lxor s2 s1 in
      let t0 := Z.lxor s0 (Z.land (not64 s1) s2) in
      let t1 := Z.lxor s1 (Z.land (not64 s2) s3) in
      let t2 := Z.lxor s2 (Z.land (not64 s3) s4) in
      let t3 := Z.lxor s3 (Z.land (not64 s4) s0) in
      let t4 := Z.lxor s4 (Z.land (not64 s0) s1) in
      [Z.lxor t0 t4; Z.lxor t1 t0; not64 t2; Z.lxor t3 t2; t4].
Definition diffuse (t : list Z) : list Z :=
  match t with
  | [t0; t1; t2; t3; t4] =>
      [Z.lxor (Z.lxor t0 (ror64 t0 19)) (ror64 t0 28);
       Z.lxor (Z.lxor t1 (ror64 t1 61)) (ror64 t1 39);
       Z.lxor (Z.lxor t2 (ror64 t2 1)) (ror64 t2 6);
       Z.lxor (Z.lxor t3 (ror64 t3 10)) (ror64 t3 17);
       Z.lxor (Z.lxor t4 (ror64 t4 7)) (ror64 t4 41)]
  | _ => t end.

Lemma one_split : forall s0 s1 s2 s3 s4 c,
  ascon_permutation_one [s0; s1; s2; s3; s4] c = diffuse (subst_words s0 s1 s2 s3 s4 c).
Proof. reflexivity. Qed.

Lemma subst_ok : forall s0 s1 s2 s3 s4 a c, w64 s0 -> w64 s1 -> w64 s2 -> w64 s3 -> w64 s4 -> w64 c ->
  aagrees [s0; s1; s2; s3; s4] a ->
  words5 (subst_words s0 s1 s2 s3 s4 c) /\ aagrees (subst_words s0 s1 s2 s3 s4 c) (pS (pC c a)).
Proof.
  intros s0 s1 s2 s3 s4 a c W0 W1 W2 W3 W4 Hc Ha. split.
  - split; [reflexivity|]. cbv zeta beta iota delta [subst_words].
    repeat apply Forall_cons; try apply Forall_nil; w64s.
  - intros k j Hk Hj. unfold pS, pC. cbn [Nat.eqb].
    rewrite <- (Ha 0%nat j), <- (Ha 1%nat j), <- (Ha 2%nat j), <- (Ha 3%nat j), <- (Ha 4%nat j) by (auto; lia).
    cbn [nth].
    do 5 (destruct k as [|k]; [
      cbv zeta beta iota delta [subst_words nth];
      repeat (rewrite ?Z.lxor_spec, ?Z.land_spec; rewrite ?testbit_not64 by lia);
      destruct (Z.testbit s0 j), (Z.testbit s1 j), (Z.testbit s2 j), (Z.testbit s3 j),
        (Z.testbit s4 j), (Z.testbit c j); reflexivity|]).
    lia.
Qed.

Lemma diffuse_ok : forall t a, words5 t -> aagrees t a -> words5 (diffuse t) /\ aagrees (diffuse t) (pL a).
Proof.
  intros t a [Hl Hw] Ha. destruct (list5 t Hl) as (s0 & s1 & s2 & s3 & s4 & ->).
  inversion Hw as [|? ? W0 H1]; subst. inversion H1 as [|? ? W1 H2]; subst.
  inversion H2 as [|? ? W2 H3]; subst. inversion H3 as [|? ? W3 H4]; subst.
  inversion H4 as [|? ? W4 H5]; subst. clear Hw H1 H2 H3 H4 H5.
  split.
  - split; [reflexivity|]. cbv beta iota delta [diffuse].
    repeat apply Forall_cons; try apply Forall_nil; w64s.
  - intros k j Hk Hj. unfold pL.
    assert (M : forall n, 0 <= (j + n) mod 64 < 64) by (intros; apply Z.mod_pos_bound; lia).
    do 5 (destruct k as [|k]; [
      cbv beta iota delta [rots nth diffuse];
      rewrite <- !Ha by (try apply M; lia); cbn [nth];
      rewrite !Z.lxor_spec, !testbit_ror64 by (auto; lia); reflexivity|]).
    lia.
Qed.

Lemma permutation_one_ok : forall s a rnd i, words5 s -> aagrees s a -> w64 (acst rnd i) ->
  words5 (ascon_permutation_one s (acst rnd i)) /\
  aagrees (ascon_permutation_one s (acst rnd i)) (around rnd a i).
Proof.
  intros s a rnd i [Hl Hw] Ha Hc. destruct (list5 s Hl) as (s0 & s1 & s2 & s3 & s4 & ->).
  inversion Hw as [|? ? W0 H1]; subst. inversion H1 as [|? ? W1 H2]; subst.
  inversion H2 as [|? ? W2 H3]; subst. inversion H3 as [|? ? W3 H4]; subst.
  inversion H4 as [|? ? W4 H5]; subst.
  rewrite one_split.
  destruct (subst_ok s0 s1 s2 s3 s4 a (acst rnd i)) as [A B]; auto.
  apply diffuse_ok; auto.
Qed.

Lemma rounds_ok : forall rnd l s a, (rnd <= 12)%nat -> (forall i, In i l -> (i < rnd)%nat) ->
  words5 s -> aagrees s a ->
  words5 (fold_left ascon_permutation_one (map (acst rnd) l) s) /\
  aagrees (fold_left ascon_permutation_one (map (acst rnd) l) s) (fold_left (around rnd) l a).
Proof.
  intros rnd l. induction l as [|i l IH]; intros s a Hr Hl Hs Ha; [split; assumption|].
  cbn [map fold_left].
  assert (Hc : w64 (acst rnd i)).
  { pose proof (Hl i (or_introl eq_refl)). unfold acst, w64.
    assert (0 <= Z.of_nat (12 - rnd + i) <= 12) by lia. lia. }
  destruct (permutation_one_ok s a rnd i Hs Ha Hc) as [A B].
  apply IH; auto. intros; apply Hl; right; auto.
Qed.

Lemma permutation_ok : forall rnd s a, In rnd [6; 8; 12]%nat -> words5 s -> aagrees s a ->
  words5 (ascon_c_permutation rnd s) /\ aagrees (ascon_c_permutation rnd s) (ascon_p rnd a).
Proof.
  intros rnd s a Hr Hs Ha.
  assert (E : ascon_c_permutation rnd s = fold_left ascon_permutation_one (map (acst rnd) (seq 0 rnd)) s).
  { cbn in Hr. destruct Hr as [<-|[<-|[<-|[]]]]; reflexivity. }
  rewrite E. unfold ascon_p. apply rounds_ok; auto.
  - cbn in Hr. intuition lia.
  - intros i Hi. apply in_seq in Hi. lia.
Qed.

Definition st40 (b : list Z) : Prop := length b = 40%nat /\ bytes b.

Lemma words5_ok : forall b, st40 b -> words5 (words5_of_bytes b) /\ aagrees (words5_of_bytes b) (astate_of_bytes b).
Proof.
  intros b [Hl Hb]. split.
  - split; [reflexivity|]. unfold words5_of_bytes. rewrite Forall_map, Forall_forall.
    intros i Hi. apply in_seq in Hi.
    pose proof (le_val_bound (slice b (8 * i) 8) (bytes_slice b (8 * i) 8 Hb)) as Q.
    rewrite length_slice in Q by lia. exact Q.
  - intros i j Hi Hj. unfold words5_of_bytes, astate_of_bytes.
    rewrite nth_map_seq by lia. cbn [Nat.add].
    rewrite testbit_le_val by (try apply bytes_slice; auto; lia).
    assert (0 <= j / 8 < 8) by (split; [apply Z.div_pos|apply Z.div_lt_upper_bound]; lia).
    rewrite nth_slice by lia.
    replace (64 * Z.of_nat i + j) with (j + 8 * Z.of_nat i * 8) by lia.
    rewrite Z.div_add, Z.mod_add by lia. f_equal. f_equal. lia.
Qed.

Lemma bytes_of_words_ok : forall s a, words5 s -> aagrees s a -> bytes_of_words s = bytes_of_astate a.
Proof.
  intros s a [Hl Hw] Ha. unfold bytes_of_words, bytes_of_astate.
  apply nth_ext0.
  - rewrite length_flat_le8, map_length, seq_length, Hl. reflexivity.
  - rewrite length_flat_le8, Hl. intros i Hi.
    rewrite nth_map_seq by lia. cbn [Nat.add].
    pose proof (bytes_flat_le8 s) as HB. unfold bytes in HB; rewrite Forall_forall in HB.
    rewrite (byte_bits (nth i (flat_map _ _) 0)).
    2: { apply HB, nth_In. rewrite length_flat_le8, Hl. lia. }
    apply byte_of_bits_ext. intros j Hj.
    rewrite nth_flat_le8 by lia.
    assert (Hi8 : (i / 8 < 5)%nat) by (apply Nat.div_lt_upper_bound; lia).
    pose proof (Nat.mod_upper_bound i 8 ltac:(lia)).
    rewrite nth_le_bytes_testbit; try lia.
    + apply Ha; lia.
    + rewrite Forall_forall in Hw. apply (Hw (nth (i / 8) s 0)). apply nth_In. lia.
Qed.

Lemma asconB_spec : forall rnd b, In rnd [6; 8; 12]%nat -> st40 b -> asconB rnd b = ascon_p_bytes rnd b.
Proof.
  intros rnd b Hr Hb. destruct (words5_ok b Hb) as [A B].
  destruct (permutation_ok rnd _ _ Hr A B) as [C D].
  unfold asconB, ascon_p_bytes. apply bytes_of_words_ok; auto.
Qed.

Lemma asconB_st40 : forall rnd b, In rnd [6; 8; 12]%nat -> st40 b -> st40 (asconB rnd b).
Proof.
  intros rnd b Hr Hb. destruct (words5_ok b Hb) as [A B].
  destruct (permutation_ok rnd _ _ Hr A B) as [C D].
  split; [|apply bytes_flat_le8]. unfold asconB, bytes_of_words.
  rewrite length_flat_le8, (proj1 C). reflexivity.
Qed.

Lemma length_perm_one : forall s c, length s = 5%nat -> length (ascon_permutation_one s c) = 5%nat.
Proof. intros s c H. destruct (list5 s H) as (? & ? & ? & ? & ? & ->). reflexivity. Qed.

Lemma asconB_length : forall rnd b, length (asconB rnd b) = 40%nat.
Proof.
  intros rnd b. unfold asconB, bytes_of_words. rewrite length_flat_le8.
  assert (L : length (ascon_c_permutation rnd (words5_of_bytes b)) = 5%nat).
  { assert (G : forall l s, length s = 5%nat -> length (fold_left ascon_permutation_one l s) = 5%nat).
    { induction l; intros; auto. cbn [fold_left]. apply IHl, length_perm_one; auto. }
    assert (W : length (words5_of_bytes b) = 5%nat) by reflexivity.
    unfold ascon_c_permutation.
    do 13 (destruct rnd as [|rnd]; [first [apply G; exact W|exact W]|]). exact W. }
  rewrite L. reflexivity.
Qed.
Global Opaque asconB.
