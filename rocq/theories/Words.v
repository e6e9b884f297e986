(** 32 and 64 bit words as non-negative integers. *)
From Verif Require Import Bytes.

Definition m32 : Z := 4294967295.
Definition m64 : Z := 18446744073709551615.

Definition w32 (x : Z) : Prop := 0 <= x < 2 ^ 32.
Definition w64 (x : Z) : Prop := 0 <= x < 2 ^ 64.

(** Truncation to a C unsigned type, by masking. *)
Definition t32 (x : Z) : Z := Z.land x m32.
Definition t64 (x : Z) : Z := Z.land x m64.

Definition add32 (x y : Z) : Z := t32 (x + y).
Definition add64 (x y : Z) : Z := t64 (x + y).
Definition not32 (x : Z) : Z := Z.lxor x m32.
Definition not64 (x : Z) : Z := Z.lxor x m64.

(** Rotations as written in C: (x << (n & 63)) | (x >> ((64 - n) & 63)). *)
Definition rol64 (x n : Z) : Z :=
  Z.lor (t64 (Z.shiftl x (n mod 64))) (Z.shiftr x ((64 - n) mod 64)).
Definition ror64 (x n : Z) : Z :=
  Z.lor (Z.shiftr x (n mod 64)) (t64 (Z.shiftl x ((64 - n) mod 64))).
Definition rol32 (x n : Z) : Z :=
  Z.lor (t32 (Z.shiftl x (n mod 32))) (Z.shiftr x ((32 - n) mod 32)).
Definition ror32 (x n : Z) : Z :=
  Z.lor (Z.shiftr x (n mod 32)) (t32 (Z.shiftl x ((32 - n) mod 32))).

(** Array access and update on word arrays. *)
Definition get (s : list Z) (i : nat) : Z := nth i s 0.
Fixpoint upd (s : list Z) (i : nat) (v : Z) : list Z :=
  match s, i with
  | [], _ => []
  | _ :: s', O => v :: s'
  | x :: s', S k => x :: upd s' k v
  end.

Lemma t32_mod : forall x, t32 x = x mod 2 ^ 32.
Proof. intros. unfold t32. change m32 with (Z.ones 32). apply Z.land_ones. lia. Qed.
Lemma t64_mod : forall x, t64 x = x mod 2 ^ 64.
Proof. intros. unfold t64. change m64 with (Z.ones 64). apply Z.land_ones. lia. Qed.

Lemma t32_range : forall x, w32 (t32 x).
Proof. intros. unfold w32. rewrite t32_mod. apply Z.mod_pos_bound. reflexivity. Qed.
Lemma t64_range : forall x, w64 (t64 x).
Proof. intros. unfold w64. rewrite t64_mod. apply Z.mod_pos_bound. reflexivity. Qed.

Lemma t32_id : forall x, w32 x -> t32 x = x.
Proof. intros. rewrite t32_mod. apply Z.mod_small. exact H. Qed.
Lemma t64_id : forall x, w64 x -> t64 x = x.
Proof. intros. rewrite t64_mod. apply Z.mod_small. exact H. Qed.

Lemma w64_bits_high : forall x z, w64 x -> 64 <= z -> Z.testbit x z = false.
Proof.
  intros x z [H0 H1] Hz. destruct (Z.eq_dec x 0) as [->|Hx]; [apply Z.bits_0|].
  apply Z.bits_above_log2; [lia|].
  apply Z.lt_le_trans with 64; [apply Z.log2_lt_pow2; lia|lia].
Qed.
Lemma w32_bits_high : forall x z, w32 x -> 32 <= z -> Z.testbit x z = false.
Proof.
  intros x z [H0 H1] Hz. destruct (Z.eq_dec x 0) as [->|Hx]; [apply Z.bits_0|].
  apply Z.bits_above_log2; [lia|].
  apply Z.lt_le_trans with 32; [apply Z.log2_lt_pow2; lia|lia].
Qed.

Lemma w64_of_bits : forall x, 0 <= x -> (forall z, 64 <= z -> Z.testbit x z = false) -> w64 x.
Proof.
  intros x H0 H. split; [exact H0|].
  destruct (Z.eq_dec x 0) as [->|Hx]; [reflexivity|].
  apply Z.log2_lt_pow2; [lia|].
  destruct (Z.lt_ge_cases (Z.log2 x) 64) as [|Hge]; auto.
  specialize (H _ Hge). rewrite Z.bit_log2 in H by lia. discriminate.
Qed.

Lemma w64_lxor : forall x y, w64 x -> w64 y -> w64 (Z.lxor x y).
Proof. intros. apply lxor_bound; auto; lia. Qed.
Lemma w32_lxor : forall x y, w32 x -> w32 y -> w32 (Z.lxor x y).
Proof. intros. apply lxor_bound; auto; lia. Qed.

Lemma w64_land : forall x y, 0 <= x -> w64 y -> w64 (Z.land x y).
Proof.
  intros x y Hx Hy. apply w64_of_bits.
  - apply Z.land_nonneg. lia.
  - intros z Hz. rewrite Z.land_spec, (w64_bits_high y) by auto. apply andb_false_r.
Qed.

Lemma w64_lor : forall x y, w64 x -> w64 y -> w64 (Z.lor x y).
Proof.
  intros x y Hx Hy. apply w64_of_bits.
  - apply Z.lor_nonneg. unfold w64 in *; lia.
  - intros z Hz. rewrite Z.lor_spec, !w64_bits_high by auto. reflexivity.
Qed.

Lemma w64_shiftr : forall x n, 0 <= n -> w64 x -> w64 (Z.shiftr x n).
Proof.
  intros x n Hn Hx. apply w64_of_bits.
  - apply Z.shiftr_nonneg. unfold w64 in *; lia.
  - intros z Hz. rewrite Z.shiftr_spec by lia. apply w64_bits_high; auto; lia.
Qed.

Lemma w32_of_bits : forall x, 0 <= x -> (forall z, 32 <= z -> Z.testbit x z = false) -> w32 x.
Proof.
  intros x H0 H. split; [exact H0|].
  destruct (Z.eq_dec x 0) as [->|Hx]; [reflexivity|].
  apply Z.log2_lt_pow2; [lia|].
  destruct (Z.lt_ge_cases (Z.log2 x) 32) as [|Hge]; auto.
  specialize (H _ Hge). rewrite Z.bit_log2 in H by lia. discriminate.
Qed.
Lemma w32_land : forall x y, 0 <= x -> w32 y -> w32 (Z.land x y).
Proof.
  intros x y Hx Hy. apply w32_of_bits.
  - apply Z.land_nonneg. lia.
  - intros z Hz. rewrite Z.land_spec, (w32_bits_high y) by auto. apply andb_false_r.
Qed.
Lemma w32_lor : forall x y, w32 x -> w32 y -> w32 (Z.lor x y).
Proof.
  intros x y Hx Hy. apply w32_of_bits.
  - apply Z.lor_nonneg. unfold w32 in *; lia.
  - intros z Hz. rewrite Z.lor_spec, !w32_bits_high by auto. reflexivity.
Qed.
Lemma w32_shiftr : forall x n, 0 <= n -> w32 x -> w32 (Z.shiftr x n).
Proof.
  intros x n Hn Hx. apply w32_of_bits.
  - apply Z.shiftr_nonneg. unfold w32 in *; lia.
  - intros z Hz. rewrite Z.shiftr_spec by lia. apply w32_bits_high; auto; lia.
Qed.

Lemma w64_not : forall x, w64 x -> w64 (not64 x).
Proof. intros. apply w64_lxor; auto. unfold w64, m64; lia. Qed.
Lemma w32_not : forall x, w32 x -> w32 (not32 x).
Proof. intros. apply w32_lxor; auto. unfold w32, m32; lia. Qed.

Lemma w64_rol : forall x n, w64 x -> w64 (rol64 x n).
Proof.
  intros. apply w64_lor; [apply t64_range|apply w64_shiftr; auto].
  apply Z.mod_pos_bound. lia.
Qed.
Lemma w64_ror : forall x n, w64 x -> w64 (ror64 x n).
Proof.
  intros. apply w64_lor; [apply w64_shiftr; auto|apply t64_range].
  apply Z.mod_pos_bound. lia.
Qed.
Lemma w32_rol : forall x n, w32 x -> w32 (rol32 x n).
Proof.
  intros. apply w32_lor; [apply t32_range|apply w32_shiftr; auto].
  apply Z.mod_pos_bound. lia.
Qed.
Lemma w32_ror : forall x n, w32 x -> w32 (ror32 x n).
Proof.
  intros. apply w32_lor; [apply w32_shiftr; auto|apply t32_range].
  apply Z.mod_pos_bound. lia.
Qed.

Lemma testbit_t64 : forall x z, 0 <= z < 64 -> Z.testbit (t64 x) z = Z.testbit x z.
Proof.
  intros. unfold t64. change m64 with (Z.ones 64). rewrite Z.land_spec, Z.ones_spec_low by lia.
  apply andb_true_r.
Qed.
Lemma testbit_t32 : forall x z, 0 <= z < 32 -> Z.testbit (t32 x) z = Z.testbit x z.
Proof.
  intros. unfold t32. change m32 with (Z.ones 32). rewrite Z.land_spec, Z.ones_spec_low by lia.
  apply andb_true_r.
Qed.

Lemma testbit_not64 : forall x z, 0 <= z < 64 -> Z.testbit (not64 x) z = negb (Z.testbit x z).
Proof.
  intros. unfold not64. change m64 with (Z.ones 64). rewrite Z.lxor_spec, Z.ones_spec_low by lia.
  apply xorb_true_r.
Qed.
Lemma testbit_not32 : forall x z, 0 <= z < 32 -> Z.testbit (not32 x) z = negb (Z.testbit x z).
Proof.
  intros. unfold not32. change m32 with (Z.ones 32). rewrite Z.lxor_spec, Z.ones_spec_low by lia.
  apply xorb_true_r.
Qed.

Lemma testbit_rol64 : forall x n z, w64 x -> 0 < n < 64 -> 0 <= z < 64 ->
  Z.testbit (rol64 x n) z = Z.testbit x ((z - n) mod 64).
Proof.
  intros x n z Hx Hn Hz. unfold rol64.
  rewrite (Z.mod_small n 64), (Z.mod_small (64 - n) 64) by lia.
  rewrite Z.lor_spec, testbit_t64, Z.shiftl_spec, Z.shiftr_spec by lia.
  destruct (Z.lt_ge_cases z n).
  - rewrite Z.testbit_neg_r by lia. rewrite orb_false_l. f_equal.
    replace (z - n) with ((z + (64 - n)) + (-1) * 64) by lia. rewrite Z.mod_add by lia.
    rewrite Z.mod_small; lia.
  - rewrite (w64_bits_high x (z + (64 - n))) by (auto; lia). rewrite orb_false_r. f_equal.
    rewrite Z.mod_small; lia.
Qed.

Lemma testbit_ror64 : forall x n z, w64 x -> 0 < n < 64 -> 0 <= z < 64 ->
  Z.testbit (ror64 x n) z = Z.testbit x ((z + n) mod 64).
Proof.
  intros x n z Hx Hn Hz. replace (ror64 x n) with (rol64 x (64 - n)).
  - rewrite testbit_rol64 by (auto; lia). f_equal.
    replace (z - (64 - n)) with ((z + n) + (-1) * 64) by lia. apply Z.mod_add; lia.
  - unfold rol64, ror64. replace (64 - (64 - n)) with n by lia. apply Z.lor_comm.
Qed.

Lemma testbit_rol32 : forall x n z, w32 x -> 0 < n < 32 -> 0 <= z < 32 ->
  Z.testbit (rol32 x n) z = Z.testbit x ((z - n) mod 32).
Proof.
  intros x n z Hx Hn Hz. unfold rol32.
  rewrite (Z.mod_small n 32), (Z.mod_small (32 - n) 32) by lia.
  rewrite Z.lor_spec, testbit_t32, Z.shiftl_spec, Z.shiftr_spec by lia.
  destruct (Z.lt_ge_cases z n).
  - rewrite Z.testbit_neg_r by lia. rewrite orb_false_l. f_equal.
    replace (z - n) with ((z + (32 - n)) + (-1) * 32) by lia. rewrite Z.mod_add by lia.
    rewrite Z.mod_small; lia.
  - rewrite (w32_bits_high x (z + (32 - n))) by (auto; lia). rewrite orb_false_r. f_equal.
    rewrite Z.mod_small; lia.
Qed.

Lemma testbit_ror32 : forall x n z, w32 x -> 0 < n < 32 -> 0 <= z < 32 ->
  Z.testbit (ror32 x n) z = Z.testbit x ((z + n) mod 32).
Proof.
  intros x n z Hx Hn Hz. replace (ror32 x n) with (rol32 x (32 - n)).
  - rewrite testbit_rol32 by (auto; lia). f_equal.
    replace (z - (32 - n)) with ((z + n) + (-1) * 32) by lia. apply Z.mod_add; lia.
  - unfold rol32, ror32. replace (32 - (32 - n)) with n by lia. apply Z.lor_comm.
Qed.

(** Two words with the same bits are equal. *)
Lemma w64_ext : forall x y, w64 x -> w64 y ->
  (forall z, 0 <= z < 64 -> Z.testbit x z = Z.testbit y z) -> x = y.
Proof.
  intros x y Hx Hy H. apply Z.bits_inj'. intros z Hz.
  destruct (Z.lt_ge_cases z 64); [apply H; lia|].
  rewrite !w64_bits_high by auto. reflexivity.
Qed.
Lemma w32_ext : forall x y, w32 x -> w32 y ->
  (forall z, 0 <= z < 32 -> Z.testbit x z = Z.testbit y z) -> x = y.
Proof.
  intros x y Hx Hy H. apply Z.bits_inj'. intros z Hz.
  destruct (Z.lt_ge_cases z 32); [apply H; lia|].
  rewrite !w32_bits_high by auto. reflexivity.
Qed.

Lemma length_upd : forall s i v, length (upd s i v) = length s.
Proof. induction s; destruct i; simpl; auto. Qed.

Lemma get_upd_same : forall s i v, (i < length s)%nat -> get (upd s i v) i = v.
Proof. unfold get. induction s; destruct i; simpl; intros; auto; try lia. apply IHs. lia. Qed.

Lemma get_upd_other : forall s i j v, i <> j -> get (upd s i v) j = get s j.
Proof.
  unfold get. induction s; destruct i, j; simpl; intros; auto; try congruence.
Qed.

Lemma Forall_upd : forall (P : Z -> Prop) s i v, Forall P s -> P v -> Forall P (upd s i v).
Proof.
  intros P s. induction s; intros i v Hs Hv; simpl; auto.
  inversion Hs; subst. destruct i; constructor; auto.
Qed.

(** A list of known length is the list of its elements. *)
Lemma list_eta_seq : forall (s : list Z) n, length s = n -> s = map (fun i => nth i s 0) (seq 0 n).
Proof.
  intros s n <-. apply nth_ext0.
  - rewrite map_length, seq_length. reflexivity.
  - intros i Hi. transitivity (nth i (map (fun i => nth i s 0) (seq 0 (length s))) (nth (length s) s 0)).
    + rewrite (map_nth (fun i => nth i s 0)). rewrite seq_nth by lia. reflexivity.
    + apply nth_indep. rewrite map_length, seq_length. lia.
Qed.
