(** Compression, serialisation and sampling of ml-kem/src against FIPS 203. *)
From Verif Require Import Bytes Words ZUtil KeccakBytes PolyRing NttSim KyberModel KyberSpec KyberArith KyberNtt KyberNttModel.
Require Import Lia.

(** ** bits *)
Lemma val_bits_range : forall l, 0 <= val_bits l < 2 ^ Z.of_nat (length l).
Proof.
  induction l; cbn [val_bits length]. lia. rewrite Nat2Z.inj_succ, Z.pow_succ_r by lia. destruct a; cbn [Z.b2z]; lia.
Qed.
Lemma testbit_val_bits : forall l n, 0 <= n -> Z.testbit (val_bits l) n = nth (Z.to_nat n) l false.
Proof.
  induction l; intros n Hn; cbn [val_bits]. rewrite Z.testbit_0_l. destruct (Z.to_nat n); reflexivity.
  destruct (Z.eq_dec n 0) as [->|].
  - cbn [Z.to_nat nth]. rewrite Z.add_comm. apply Z.testbit_0_r.
  - rewrite Z.add_comm. replace n with (Z.succ (n - 1)) at 1 by lia. rewrite Z.testbit_succ_r by lia.
    rewrite IHl by lia. replace (Z.to_nat n) with (S (Z.to_nat (n - 1))) by lia. reflexivity.
Qed.
Lemma nth_map_seqA : forall {A} (f : nat -> A) a n i d, (i < n)%nat -> nth i (map f (seq a n)) d = f (a + i)%nat.
Proof.
  intros A f a n i d H. rewrite (nth_indep (map f (seq a n)) d (f O)) by (rewrite map_length, seq_length; lia).
  rewrite map_nth, seq_nth by lia. reflexivity.
Qed.
Lemma val_bits_of : forall d x, 0 <= x < 2 ^ Z.of_nat d -> val_bits (map (fun j => Z.testbit x (Z.of_nat j)) (seq 0 d)) = x.
Proof.
  intros d x H. apply Z.bits_inj'. intros n Hn. rewrite testbit_val_bits by auto.
  destruct (Nat.lt_ge_cases (Z.to_nat n) d).
  - rewrite (nth_map_seqA (fun j => Z.testbit x (Z.of_nat j))) by auto. f_equal. lia.
  - rewrite nth_overflow by (rewrite map_length, seq_length; auto). symmetry. apply (testbit_above x (Z.of_nat d)); auto; lia.
Qed.
Lemma testbit_u8 : forall x n, 0 <= n -> Z.testbit (u8 x) n = (n <? 8) && Z.testbit x n.
Proof. intros. unfold u8. change 256 with (2 ^ 8). destruct (Z.ltb_spec n 8). rewrite Z.mod_pow2_bits_low by lia. reflexivity. rewrite Z.mod_pow2_bits_high by lia. reflexivity. Qed.
Lemma testbit_u16 : forall x n, 0 <= n -> Z.testbit (u16 x) n = (n <? 16) && Z.testbit x n.
Proof. intros. unfold u16. change 65536 with (2 ^ 16). destruct (Z.ltb_spec n 16). rewrite Z.mod_pow2_bits_low by lia. reflexivity. rewrite Z.mod_pow2_bits_high by lia. reflexivity. Qed.

(** [n] fields of [d] bits in [pb] bytes *)
Definition encG (d pb : nat) (F : list Z) : list Z :=
  map (fun k => val_bits (map (fun j => fbit d F (8 * k + j)) (seq 0 8))) (seq 0 pb).
Definition decG (d m : nat) (B : list Z) : list Z :=
  map (fun i => val_bits (map (fun j => fbit 8 B (d * i + j)) (seq 0 d))) (seq 0 m).

Lemma seq_shift_map : forall {A} (f : nat -> A) a n, map f (seq a n) = map (fun i => f (a + i)%nat) (seq 0 n).
Proof.
  intros A f a n. revert a f. induction n; intros a f; cbn [seq map]; auto. rewrite Nat.add_0_r. f_equal.
  rewrite (IHn (S a)), (IHn 1%nat). apply map_ext. intros. f_equal. lia.
Qed.
Lemma fbit_app_l : forall d F G n, (0 < d)%nat -> (n < d * length F)%nat -> fbit d (F ++ G) n = fbit d F n.
Proof.
  intros. unfold fbit. rewrite app_nth1. reflexivity. apply Nat.div_lt_upper_bound; lia.
Qed.
Lemma fbit_app_r : forall d F G n, (0 < d)%nat -> fbit d (F ++ G) (d * length F + n) = fbit d G n.
Proof.
  intros. unfold fbit. replace (d * length F + n)%nat with (n + length F * d)%nat by lia.
  rewrite Nat.div_add, Nat.mod_add by lia. rewrite app_nth2 by lia. do 2 f_equal. lia.
Qed.
Lemma encG_app : forall d pb pb' F G, (0 < d)%nat -> (d * length F = 8 * pb)%nat -> encG d (pb + pb') (F ++ G) = encG d pb F ++ encG d pb' G.
Proof.
  intros d pb pb' F G Hd HF. unfold encG. rewrite seq_app, map_app. f_equal.
  - apply map_ext_in. intros k Hk. apply in_seq in Hk. f_equal. apply map_ext_in. intros j Hj. apply in_seq in Hj. apply fbit_app_l; lia.
  - rewrite seq_shift_map. apply map_ext. intros k. f_equal. apply map_ext. intros j.
    replace (8 * (0 + pb + k) + j)%nat with (d * length F + (8 * k + j))%nat by lia. apply fbit_app_r. auto.
Qed.
Lemma decG_app : forall d m m' F G, (d * m = 8 * length F)%nat -> decG d (m + m') (F ++ G) = decG d m F ++ decG d m' G.
Proof.
  intros d m m' F G HF. unfold decG. rewrite seq_app, map_app. f_equal.
  - apply map_ext_in. intros k Hk. apply in_seq in Hk. f_equal. apply map_ext_in. intros j Hj. apply in_seq in Hj. apply fbit_app_l; try lia. nia.
  - rewrite seq_shift_map. apply map_ext. intros k. f_equal. apply map_ext. intros j.
    replace (d * (0 + m + k) + j)%nat with (8 * length F + (d * k + j))%nat by lia. apply fbit_app_r. lia.
Qed.

Lemma enc_chunks : forall d n pb pk, (0 < d)%nat -> (0 < n)%nat -> (d * n = 8 * pb)%nat ->
  (forall t, length t = n -> Forall (fun x => 0 <= x < 2 ^ Z.of_nat d) t -> pk t = encG d pb t) ->
  forall m F, length F = (n * m)%nat -> Forall (fun x => 0 <= x < 2 ^ Z.of_nat d) F ->
  flat_map pk (full_chunks n F) = encG d (pb * m) F.
Proof.
  intros d n pb pk Hd Hn E H. induction m; intros F L HF.
  - destruct F; [|cbn in L; lia]. replace (pb * 0)%nat with 0%nat by lia. reflexivity.
  - rewrite <- (firstn_skipn n F) in *. assert (L1 : length (firstn n F) = n) by (rewrite firstn_length; rewrite app_length, firstn_length, skipn_length in L; lia).
    apply Forall_app in HF. destruct HF as [H1 H2]. rewrite app_length, L1 in L.
    destruct (full_chunks_cons n (firstn n F) (skipn n F) Hn L1) as [C _]. rewrite C. cbn [flat_map].
    rewrite H, IHm by (auto; lia). replace (pb * S m)%nat with (pb + pb * m)%nat by lia. rewrite encG_app; auto. lia.
Qed.
Lemma dec_chunks : forall d n pb (g h : Z -> Z) upk, (0 < pb)%nat -> (d * n = 8 * pb)%nat ->
  (forall t, length t = pb -> bytes t -> map g (upk t) = map h (decG d n t)) ->
  forall m F, length F = (pb * m)%nat -> bytes F ->
  map g (flat_map upk (full_chunks pb F)) = map h (decG d (n * m) F).
Proof.
  intros d n pb g h upk Hn E H. induction m; intros F L HF.
  - destruct F; [|cbn in L; lia]. replace (n * 0)%nat with 0%nat by lia. reflexivity.
  - rewrite <- (firstn_skipn pb F) in *. assert (L1 : length (firstn pb F) = pb) by (rewrite firstn_length; rewrite app_length, firstn_length, skipn_length in L; lia).
    apply Forall_app in HF. destruct HF as [H1 H2]. rewrite app_length, L1 in L.
    destruct (full_chunks_cons pb (firstn pb F) (skipn pb F) Hn L1) as [C _]. rewrite C. cbn [flat_map].
    rewrite map_app, H, IHm by (auto; lia). replace (n * S m)%nat with (n + n * m)%nat by lia. rewrite decG_app, map_app; auto. lia.
Qed.

(** ** the packing code, bit by bit *)
Definition small (d t : Z) : Prop := forall c, d <= c -> Z.testbit t c = false.
Lemma small_intro : forall d t, 0 <= d -> 0 <= t < 2 ^ d -> small d t.
Proof. intros d t Hd H c Hc. apply (testbit_above t d); auto; lia. Qed.

Ltac nats := cbv [encG decG fbit seq map nth Nat.div Nat.modulo Nat.divmod fst snd Nat.sub Nat.mul Nat.add Z.of_nat Pos.of_succ_nat Pos.succ].
Ltac high := repeat match goal with
  | |- context [Z.testbit ?t (Zneg ?p)] => rewrite (Z.testbit_neg_r t (Zneg p)) by lia
  | H : small ?d ?t |- context [Z.testbit ?t ?c] => rewrite (H c) by (clear; lia)
  end.
Ltac bits0 := repeat first [ rewrite Z.lor_spec | rewrite Z.land_spec | rewrite Z.shiftr_spec by (clear; lia) | rewrite Z.shiftl_spec by (clear; lia)
  | rewrite testbit_u16 by (clear; lia) | rewrite testbit_u8 by (clear; lia) ].
Ltac fin := high; repeat first [rewrite orb_false_r | rewrite orb_false_l | rewrite andb_true_r | rewrite andb_false_r | rewrite andb_true_l]; reflexivity.
Ltac onebit := bits0; cbv -[Z.testbit orb andb]; fin.
Ltac splitn n k := lazymatch k with
  | O => idtac
  | S ?k' => destruct (Z.eq_dec n (Z.of_nat k')) as [->|]; [onebit | splitn n k']
  end.
(** goal: X = val_bits l with length l = w *)
Ltac bitwise w := apply Z.bits_inj'; let n := fresh "n" in let Hn := fresh "Hn" in intros n Hn; rewrite testbit_val_bits by exact Hn;
  let H := fresh in destruct (Z.lt_ge_cases n w) as [H|H];
  [ let k := eval cbv in (Z.to_nat w) in splitn n k; exfalso; cbv [Z.of_nat Pos.of_succ_nat Pos.succ] in *; lia
  | rewrite nth_overflow by (cbn [length]; lia) ].

Lemma u8_high : forall x n, 8 <= n -> Z.testbit (u8 x) n = false.
Proof. intros. rewrite testbit_u8 by lia. destruct (Z.ltb_spec n 8); [lia|reflexivity]. Qed.
Ltac byte := bitwise 8; apply u8_high; auto.

Ltac f_inv H := let A := fresh "A" in pose proof (Forall_inv H) as A; apply Forall_inv_tail in H; cbv beta in A; apply (small_intro _ _) in A; [|clear; lia].
Ltac listn L t := let x := fresh "t" in destruct t as [|x t]; [cbn in L; lia|]; cbn [length] in L.
Ltac cons_eq := repeat (apply f_equal2; [|]); try reflexivity.

Lemma pack4_ok : forall t, length t = 8%nat -> Forall (fun x => 0 <= x < 2 ^ Z.of_nat 4) t -> pack4 t = encG 4 4 t.
Proof.
  intros t L H. do 8 listn L t. destruct t; [|cbn in L; lia]. do 8 f_inv H. nats. cbn [pack4]. cons_eq; byte.
Qed.
Lemma pack5_ok : forall t, length t = 8%nat -> Forall (fun x => 0 <= x < 2 ^ Z.of_nat 5) t -> pack5 t = encG 5 5 t.
Proof.
  intros t L H. do 8 listn L t. destruct t; [|cbn in L; lia]. do 8 f_inv H. nats. cbn [pack5]. cons_eq; byte.
Qed.
Lemma pack10_ok : forall t, length t = 4%nat -> Forall (fun x => 0 <= x < 2 ^ Z.of_nat 10) t -> pack10 t = encG 10 5 t.
Proof.
  intros t L H. do 4 listn L t. destruct t; [|cbn in L; lia]. do 4 f_inv H. nats. cbn [pack10]. cons_eq; byte.
Qed.
Lemma pack11_ok : forall t, length t = 8%nat -> Forall (fun x => 0 <= x < 2 ^ Z.of_nat 11) t -> pack11 t = encG 11 11 t.
Proof.
  intros t L H. do 8 listn L t. destruct t; [|cbn in L; lia]. do 8 f_inv H. nats. cbn [pack11]. cons_eq; byte.
Qed.
Lemma pack12_ok : forall t, length t = 2%nat -> Forall (fun x => 0 <= x < 2 ^ Z.of_nat 12) t -> pack12 t = encG 12 3 t.
Proof.
  intros t L H. do 2 listn L t. destruct t; [|cbn in L; lia]. do 2 f_inv H. nats. cbn [pack12]. cons_eq; byte.
Qed.

(** unpacking; the mask may be applied later *)
Lemma land_high : forall x d n, 0 <= d -> d <= n -> Z.testbit (Z.land x (2 ^ d - 1)) n = false.
Proof. intros. replace (2 ^ d - 1) with (Z.ones d) by (rewrite Z.ones_equiv; lia).
  rewrite Z.land_ones by lia. apply Z.mod_pow2_bits_high. lia. Qed.
Ltac masked d := bitwise d; match goal with |- Z.testbit (Z.land _ ?m) _ = false => change m with (2 ^ d - 1); apply land_high; [clear; lia|assumption] end.
Ltac b_inv H := let A := fresh "A" in pose proof (Forall_inv H) as A; apply Forall_inv_tail in H; cbv beta in A; change 256 with (2 ^ 8) in A; apply (small_intro _ _) in A; [|clear; lia].

Lemma unpack12_ok : forall b, length b = 3%nat -> bytes b -> unpack12 b = decG 12 2 b.
Proof. intros b L H. do 3 listn L b. destruct b; [|cbn in L; lia]. unfold bytes, byte in H. do 3 b_inv H. nats. cbn [unpack12]. cons_eq; masked 12. Qed.
Lemma unpack4_ok : forall b, length b = 1%nat -> bytes b -> unpack4 b = decG 4 2 b.
Proof.
  intros b L H. do 1 listn L b. destruct b; [|cbn in L; lia]. unfold bytes, byte in H. b_inv H. nats. cbn [unpack4]. cons_eq.
  masked 4. bitwise 4. rewrite Z.shiftr_spec by lia. apply A. lia.
Qed.
Lemma unpack5_ok : forall b, length b = 5%nat -> bytes b -> map (fun t => Z.land t 31) (unpack5 b) = decG 5 8 b.
Proof. intros b L H. do 5 listn L b. destruct b; [|cbn in L; lia]. unfold bytes, byte in H. do 5 b_inv H. nats. cbn [unpack5 map]. cons_eq; masked 5. Qed.
Lemma unpack10_ok : forall b, length b = 5%nat -> bytes b -> map (fun t => Z.land t 1023) (unpack10 b) = decG 10 4 b.
Proof. intros b L H. do 5 listn L b. destruct b; [|cbn in L; lia]. unfold bytes, byte in H. do 5 b_inv H. nats. cbn [unpack10 map]. cons_eq; masked 10. Qed.
Lemma unpack11_ok : forall b, length b = 11%nat -> bytes b -> map (fun t => Z.land t 2047) (unpack11 b) = decG 11 8 b.
Proof. intros b L H. do 11 listn L b. destruct b; [|cbn in L; lia]. unfold bytes, byte in H. do 11 b_inv H. nats. cbn [unpack11 map]. cons_eq; masked 11. Qed.
