(** Keccak-f[1600] on the 200 byte view of the state. *)
From Verif Require Import Bytes Words KeccakModel KeccakSpec KeccakProof SpongeSpec Sha3Model Sha3Proof.

(** The uint64_t state[25] array seen as 200 bytes of memory on a little-endian host
    [hash/api/lc_sha3.h: 50-52], and back. *)
Definition lanes_of_bytes (b : list Z) : list Z := map (fun i => le_val (slice b (8 * i) 8)) (seq 0 25).
Definition bytes_of_lanes (s : list Z) : list Z := flat_map (le_bytes 8) s.
(** [hash/src/sha3_c.c: 134-157] keccakp_1600 on that view. *)
Definition permB (b : list Z) : list Z := bytes_of_lanes (keccakp_1600 (lanes_of_bytes b)).

Lemma byte_forall : forall P : Z -> bool, forallb P (map Z.of_nat (seq 0 256)) = true ->
  forall x, byte x -> P x = true.
Proof.
  intros P H x [H0 H1]. rewrite forallb_forall in H. apply H.
  apply in_map_iff. exists (Z.to_nat x). split; [lia|]. apply in_seq. lia.
Qed.

Lemma byte_bits : forall x, byte x -> x = byte_of_bits (Z.testbit x).
Proof.
  intros x H. apply Z.eqb_eq. revert x H. apply byte_forall. vm_compute. reflexivity.
Qed.

Lemma testbit_byte_high : forall x n, byte x -> 8 <= n -> Z.testbit x n = false.
Proof.
  intros x n [H0 H1] Hn. destruct (Z.eq_dec x 0) as [->|]; [apply Z.testbit_0_l|].
  apply Z.bits_above_log2; auto. assert (Z.log2 x < 8) by (apply Z.log2_lt_pow2; lia). lia.
Qed.

Lemma testbit_add256 : forall a b n, byte a -> 0 <= n ->
  Z.testbit (a + 256 * b) n = if n <? 8 then Z.testbit a n else Z.testbit b (n - 8).
Proof.
  intros a b n Ha Hn.
  destruct Ha as [Ha0 Ha1].
  destruct (n <? 8) eqn:E.
  - apply Z.ltb_lt in E.
    rewrite <- (Z.mod_pow2_bits_low (a + 256 * b) 8 n) by lia.
    replace (a + 256 * b) with (a + b * 2 ^ 8) by lia.
    rewrite Z.mod_add, Z.mod_small by lia. reflexivity.
  - apply Z.ltb_ge in E.
    replace n with ((n - 8) + 8) at 1 by lia.
    rewrite <- Z.div_pow2_bits by lia.
    replace (a + 256 * b) with (a + b * 2 ^ 8) by lia.
    rewrite Z.div_add, Z.div_small by lia. reflexivity.
Qed.

Lemma testbit_le_val : forall l n, bytes l -> 0 <= n ->
  Z.testbit (le_val l) n = Z.testbit (nth (Z.to_nat (n / 8)) l 0) (n mod 8).
Proof.
  induction l as [|a l IH]; intros n H Hn.
  - cbn [le_val]. destruct (Z.to_nat (n / 8)); cbn [nth]; rewrite !Z.testbit_0_l; reflexivity.
  - inversion H; subst. cbn [le_val]. rewrite testbit_add256 by auto.
    destruct (n <? 8) eqn:E.
    + apply Z.ltb_lt in E. rewrite Z.div_small, Z.mod_small by lia. reflexivity.
    + apply Z.ltb_ge in E. rewrite IH by (auto; lia).
      replace (Z.to_nat (n / 8)) with (S (Z.to_nat ((n - 8) / 8))).
      * cbn [nth]. f_equal. replace n with ((n - 8) + 1 * 8) at 2 by lia. symmetry. apply Z.mod_add. lia.
      * replace n with ((n - 8) + 1 * 8) at 2 by lia. rewrite Z.div_add by lia.
        assert (0 <= (n - 8) / 8) by (apply Z.div_pos; lia). lia.
Qed.

Lemma nth_le_bytes_testbit : forall n x i j, 0 <= x -> (i < n)%nat -> 0 <= j < 8 ->
  Z.testbit (nth i (le_bytes n x) 0) j = Z.testbit x (8 * Z.of_nat i + j).
Proof.
  induction n as [|n IH]; intros x i j Hx Hi Hj; [lia|].
  cbn [le_bytes]. destruct i as [|i].
  - cbn [nth]. change 256 with (2 ^ 8). rewrite Z.mod_pow2_bits_low by lia. f_equal.
  - cbn [nth]. rewrite IH by (try lia; apply Z.div_pos; lia).
    change 256 with (2 ^ 8). rewrite Z.div_pow2_bits by lia. f_equal. lia.
Qed.

Lemma length_flat_le8 : forall s, length (flat_map (le_bytes 8) s) = (8 * length s)%nat.
Proof.
  induction s; [reflexivity|]. cbn [flat_map]. rewrite app_length, length_le_bytes, IHs. simpl. lia.
Qed.

Lemma nth_flat_le8 : forall s i, (i < 8 * length s)%nat ->
  nth i (flat_map (le_bytes 8) s) 0 = nth (i mod 8) (le_bytes 8 (nth (i / 8) s 0)) 0.
Proof.
  induction s as [|a s IH]; intros i Hi; [simpl in Hi; lia|].
  cbn [flat_map length] in *. destruct (Nat.lt_ge_cases i 8).
  - rewrite app_nth1 by (rewrite length_le_bytes; lia).
    rewrite Nat.div_small, Nat.mod_small by lia. reflexivity.
  - rewrite app_nth2 by (rewrite length_le_bytes; lia). rewrite length_le_bytes, IH by lia.
    replace (i / 8)%nat with (S ((i - 8) / 8)).
    + cbn [nth]. f_equal. replace i with ((i - 8) + 1 * 8)%nat at 2 by lia. symmetry. apply Nat.mod_add. lia.
    + replace i with ((i - 8) + 1 * 8)%nat at 2 by lia. rewrite Nat.div_add by lia. lia.
Qed.

Lemma bytes_flat_le8 : forall s, bytes (flat_map (le_bytes 8) s).
Proof.
  induction s; [constructor|]. cbn [flat_map]. apply bytes_app; auto. apply bytes_le_bytes.
Qed.

Definition st200 (b : list Z) : Prop := length b = 200%nat /\ bytes b.

Lemma nth_slice : forall s off n i, (i < n)%nat -> nth i (slice s off n) 0 = nth (off + i) s 0.
Proof. intros. unfold slice. rewrite firstn_nth0 by lia. apply skipn_nth0. Qed.

Lemma bytes_slice : forall s off n, bytes s -> bytes (slice s off n).
Proof. intros. unfold slice. apply bytes_firstn, bytes_skipn. auto. Qed.

Lemma length_slice : forall s off n, (off + n <= length s)%nat -> length (slice s off n) = n.
Proof. intros. unfold slice. rewrite firstn_length, skipn_length. lia. Qed.

Lemma lanes_of_bytes_ok : forall b, st200 b -> lanes25 (lanes_of_bytes b).
Proof.
  intros b [Hl Hb]. split; [reflexivity|].
  unfold lanes_of_bytes. apply Forall_forall. intros x Hx. apply in_map_iff in Hx.
  destruct Hx as (i & <- & Hi). apply in_seq in Hi.
  pose proof (le_val_bound (slice b (8 * i) 8) (bytes_slice _ _ _ Hb)) as B.
  rewrite length_slice in B by lia. unfold w64. exact B.
Qed.

Lemma agrees_bytes : forall b, st200 b -> agrees (lanes_of_bytes b) (array_of_bytes b).
Proof.
  intros b [Hl Hb] x y z Hx Hy Hz. unfold array_of_lanes, array_of_bytes, lanes_of_bytes.
  rewrite nth_map_seq by lia. cbn [Nat.add].
  rewrite testbit_le_val by (try apply bytes_slice; auto; lia).
  assert (0 <= z / 8 < 8) by (split; [apply Z.div_pos|apply Z.div_lt_upper_bound]; lia).
  rewrite nth_slice by lia.
  f_equal.
  - f_equal. replace (64 * (5 * y + x) + z) with (z + 8 * (5 * y + x) * 8) by lia.
    rewrite Z.div_add by lia. assert (0 <= z / 8) by (apply Z.div_pos; lia). lia.
  - replace (64 * (5 * y + x) + z) with (z + 8 * (5 * y + x) * 8) by lia.
    symmetry. apply Z.mod_add. lia.
Qed.

Lemma keccakp_agrees : forall s a, lanes25 s -> agrees s a ->
  lanes25 (keccakp_1600 s) /\ agrees (keccakp_1600 s) (keccak_f a).
Proof.
  intros s a Hs Ha.
  refine (fold_left_rel _ _ _ (fun s a => lanes25 s /\ agrees s a) keccak_round Rnd (seq 0 24) _ s
            a (conj Hs Ha)).
  intros s' a' r Hr [H1 H2]. apply in_seq in Hr. exact (round_ok s' a' r (proj2 Hr) H1 H2).
Qed.

Lemma byte_of_bits_ext : forall f g, (forall j, 0 <= j < 8 -> f j = g j) -> byte_of_bits f = byte_of_bits g.
Proof. intros f g H. unfold byte_of_bits. rewrite !H by lia. reflexivity. Qed.

Lemma permB_aux : forall s a, lanes25 s -> agrees s a -> bytes_of_lanes s = bytes_of_array a.
Proof.
  intros s a [Hl Hw] Ha. unfold bytes_of_lanes, bytes_of_array.
  apply nth_ext0.
  - rewrite length_flat_le8, map_length, seq_length, Hl. reflexivity.
  - rewrite length_flat_le8, Hl. intros i Hi.
    rewrite nth_map_seq by lia. cbn [Nat.add].
    pose proof (bytes_flat_le8 s) as HB. unfold bytes in HB; rewrite Forall_forall in HB.
    rewrite (byte_bits (nth i (flat_map _ _) 0)).
    2: { apply HB, nth_In. rewrite length_flat_le8, Hl. lia. }
    apply byte_of_bits_ext. intros j Hj.
    rewrite nth_flat_le8 by lia.
    assert (Hi8 : (i / 8 < 25)%nat) by (apply Nat.div_lt_upper_bound; lia).
    pose proof (Nat.mod_upper_bound i 8 ltac:(lia)).
    rewrite nth_le_bytes_testbit; try lia.
    2: { pose proof (get_Forall s (i / 8) Hw) as [G _]. exact G. }
    unfold bit_xyz.
    set (n := 8 * Z.of_nat i + j).
    pose proof (Nat.div_mod i 8 ltac:(lia)) as Hdm.
    assert (En : n = 64 * Z.of_nat (i / 8) + (8 * Z.of_nat (i mod 8) + j)) by (unfold n; lia).
    assert (E1 : n / 64 = Z.of_nat (i / 8)).
    { rewrite En. symmetry. apply (Z.div_unique _ _ _ (8 * Z.of_nat (i mod 8) + j)); lia. }
    assert (E2 : n mod 64 = 8 * Z.of_nat (i mod 8) + j).
    { rewrite En. symmetry. apply (Z.mod_unique _ _ (Z.of_nat (i / 8))); lia. }
    rewrite E1, E2.
    set (k := (i / 8)%nat) in *.
    pose proof (Z.div_mod (Z.of_nat k) 5 ltac:(lia)) as Hk.
    pose proof (Z.mod_pos_bound (Z.of_nat k) 5 ltac:(lia)) as Hk2.
    rewrite <- (Ha (Z.of_nat k mod 5) (Z.of_nat k / 5) (8 * Z.of_nat (i mod 8) + j)); try lia.
    unfold array_of_lanes. f_equal. f_equal. lia.
Qed.

Lemma permB_spec : forall b, st200 b -> permB b = keccak_f_bytes b.
Proof.
  intros b Hb. unfold permB, keccak_f_bytes.
  destruct (keccakp_agrees _ _ (lanes_of_bytes_ok b Hb) (agrees_bytes b Hb)) as [H1 H2].
  exact (permB_aux _ _ H1 H2).
Qed.

Lemma permB_st200 : forall b, st200 b -> st200 (permB b).
Proof.
  intros b Hb. unfold permB.
  destruct (keccakp_agrees _ _ (lanes_of_bytes_ok b Hb) (agrees_bytes b Hb)) as [H1 _].
  split; [|apply bytes_flat_le8].
  unfold bytes_of_lanes. rewrite length_flat_le8. rewrite (proj1 H1). reflexivity.
Qed.

Lemma length_theta_rho_pi : forall s, length s = 25%nat -> length (keccakp_theta_rho_pi s) = 25%nat.
Proof.
  intros s Hl. list25 s Hl.
  cbv beta iota zeta delta [keccakp_theta_rho_pi get A rol upd nth Nat.add Nat.mul].
  reflexivity.
Qed.

Lemma length_chi_iota_k : forall s k, length s = 25%nat -> length (keccakp_chi_iota_k s k) = 25%nat.
Proof.
  intros s k Hl. list25 s Hl.
  cbv beta iota zeta delta [keccakp_chi_iota_k get A upd nth Nat.add Nat.mul].
  reflexivity.
Qed.

Lemma length_keccak_round : forall s r, length s = 25%nat -> length (keccak_round s r) = 25%nat.
Proof. intros. apply length_chi_iota_k, length_theta_rho_pi. assumption. Qed.

Lemma length_keccakp : forall s, length s = 25%nat -> length (keccakp_1600 s) = 25%nat.
Proof.
  intros s H.
  exact (fold_left_rel _ _ _ (fun (s : list Z) (_ : unit) => length s = 25%nat) keccak_round
            (fun u _ => u) (seq 0 24) (fun s' _ r _ Hs => length_keccak_round s' r Hs) s tt H).
Qed.

Lemma permB_length : forall b, length (permB b) = 200%nat.
Proof.
  intros b. unfold permB, bytes_of_lanes. rewrite length_flat_le8, length_keccakp; reflexivity.
Qed.

Lemma permB_length_pres : forall b, length b = 200%nat -> length (permB b) = 200%nat.
Proof. intros. apply permB_length. Qed.

Global Opaque permB keccakp_1600.
