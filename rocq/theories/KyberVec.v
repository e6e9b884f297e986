(** The matrix and the vector layer of ml-kem/src against FIPS 203. *)
From Verif Require Import Bytes Words ZUtil SpongeSpec KeccakSpec Fips202 KeccakModel Sha3Model KeccakBytes Sha3Proof Sha3Top HashIface DrbgProof PolyRing NttSim KyberModel KyberSpec KyberArith KyberNtt KyberNttModel KyberCodec KyberCodec2 KyberSample.
Require Import Lia.

(** ** gen_matrix *)
Lemma traverse_seq : forall (A : Type) (f : nat -> option A) (d : A) n a r,
  traverse (map f (seq a n)) = Some r <-> (length r = n /\ forall i, (i < n)%nat -> f (a + i)%nat = Some (nth i r d)).
Proof.
  intros A f d. induction n; intros a r; cbn [seq map traverse].
  - split. intros H. injection H as <-. split; auto. intros; lia. intros [L _]. destruct r; [reflexivity|cbn in L; lia].
  - split.
    + intros H. destruct (f a) as [x|] eqn:E; [|discriminate]. destruct (traverse (map f (seq (S a) n))) as [r0|] eqn:T; [|discriminate].
      injection H as <-. apply IHn in T. destruct T as [L T]. split. cbn; lia. intros [|i] Hi. rewrite Nat.add_0_r. exact E.
      cbn [nth]. replace (a + S i)%nat with (S a + i)%nat by lia. apply T. lia.
    + intros [L H]. destruct r as [|x r]; [cbn in L; lia|]. pose proof (H 0%nat ltac:(lia)) as H0. rewrite Nat.add_0_r in H0. cbn [nth] in H0. rewrite H0.
      assert (T : traverse (map f (seq (S a) n)) = Some r).
      { apply IHn. split. cbn in L; lia. intros i Hi. replace (S a + i)%nat with (a + S i)%nat by lia. rewrite H by lia. reflexivity. }
      rewrite T. reflexivity.
Qed.
Lemma length_transpose : forall k A, length (transpose k A) = k.
Proof. intros. unfold transpose. rewrite map_length. apply seq_length. Qed.
Lemma nth_map_seq_gen : forall (A : Type) (f : nat -> A) a n i d, (i < n)%nat -> nth i (map f (seq a n)) d = f (a + i)%nat.
Proof.
  intros A f a n i d H. rewrite (nth_indep _ d (f (a + i)%nat)) by (rewrite map_length, seq_length; auto).
  transitivity (f (nth i (seq a n) (a + i)%nat)). apply map_nth. rewrite seq_nth by auto. reflexivity.
Qed.
Lemma nth_transpose : forall k A i j, (i < k)%nat -> (j < k)%nat ->
  length (nth i (transpose k A) []) = k /\ nth j (nth i (transpose k A) []) [] = nth i (nth j A []) [].
Proof.
  intros k A i j Hi Hj. unfold transpose. rewrite nth_map_seq_gen by auto. cbn [Nat.add]. split.
  rewrite map_length. apply seq_length. rewrite nth_map_seq_gen by auto. reflexivity.
Qed.
Lemma nth_ext_gen : forall (A : Type) (d : A) a b, length a = length b -> (forall i, (i < length a)%nat -> nth i a d = nth i b d) -> a = b.
Proof. intros. eapply nth_ext; eauto. Qed.

Section Mat.
  Variables (k : nat) (seed : list Z).
  Hypothesis Hk : (k <= 4)%nat.
  Hypothesis Hs : bytes seed.
  Hypothesis Hl : length seed = 32%nat.
  Lemma byte_idx : forall i, (i < k)%nat -> byte (Z.of_nat i).
  Proof. intros. unfold byte. lia. Qed.
  Lemma gen_matrix_spec : forall fuel tr T, gen_matrix fuel k seed tr = Some T <->
    (length T = k /\ forall i, (i < k)%nat -> length (nth i T []) = k /\ forall j, (j < k)%nat ->
      (if tr then gen_entry fuel seed (Z.of_nat i) (Z.of_nat j) else gen_entry fuel seed (Z.of_nat j) (Z.of_nat i)) = Some (nth j (nth i T []) [])).
  Proof.
    intros fuel tr T. unfold gen_matrix. rewrite (traverse_seq _ _ []). split; intros [L H]; split; auto; intros i Hi; specialize (H i Hi);
      cbn [Nat.add] in *; apply (traverse_seq _ _ []) in H || apply (traverse_seq _ _ []); auto.
  Qed.
  Lemma gen_matrix_sound : forall fuel tr T, gen_matrix fuel k seed tr = Some T ->
    exists A, is_matrix k seed A /\ T = if tr then transpose k A else A.
  Proof.
    intros fuel tr T H. apply gen_matrix_spec in H. destruct H as [L H]. destruct tr.
    - exists (transpose k T). split.
      + split. apply length_transpose. intros i Hi. split. apply (nth_transpose k T i i); auto.
        intros j Hj. destruct (nth_transpose k T i j Hi Hj) as [_ ->]. destruct (H j Hj) as [_ E].
        eapply gen_entry_sound; [..|apply (E i Hi)]; auto using byte_idx.
      + apply (nth_ext_gen _ []). rewrite length_transpose; auto. rewrite L. intros i Hi. destruct (H i Hi) as [Li _].
        apply (nth_ext_gen _ []). rewrite Li. symmetry. apply (nth_transpose k (transpose k T) i i); auto.
        rewrite Li. intros j Hj. destruct (nth_transpose k (transpose k T) i j Hi Hj) as [_ ->].
        destruct (nth_transpose k T j i Hj Hi) as [_ ->]. reflexivity.
    - exists T. split; auto. split; auto. intros i Hi. destruct (H i Hi) as [Li E]. split; auto.
      intros j Hj. eapply gen_entry_sound; [..|apply (E j Hj)]; auto using byte_idx.
  Qed.
  Lemma bound_family : forall n (P : nat -> nat -> Prop), (forall i, (i < n)%nat -> exists f0, forall f, (f0 <= f)%nat -> P i f) ->
    exists f0, forall f, (f0 <= f)%nat -> forall i, (i < n)%nat -> P i f.
  Proof.
    induction n; intros P H. exists 0%nat. intros; lia.
    destruct (IHn P) as [a Ha]. intros; apply H; lia. destruct (H n) as [b Hb]. lia.
    exists (a + b)%nat. intros f Hf i Hi. destruct (Nat.eq_dec i n) as [->|]. apply Hb; lia. apply Ha; lia.
  Qed.
  Lemma gen_matrix_complete : forall A, is_matrix k seed A -> exists f0, forall fuel, (f0 <= fuel)%nat -> forall tr : bool,
    gen_matrix fuel k seed tr = Some (if tr then transpose k A else A).
  Proof.
    intros A [L H].
    destruct (bound_family k (fun i f => forall j, (j < k)%nat -> gen_entry f seed (Z.of_nat j) (Z.of_nat i) = Some (nth j (nth i A []) []))) as [f0 F].
    { intros i Hi. apply bound_family. intros j Hj. apply gen_entry_complete; auto using byte_idx. apply H; auto. }
    exists f0. intros fuel Hf tr. apply gen_matrix_spec. destruct tr.
    - split. apply length_transpose. intros i Hi. split. apply (nth_transpose k A i i); auto.
      intros j Hj. destruct (nth_transpose k A i j Hi Hj) as [_ ->]. apply F; auto.
    - split; auto. intros i Hi. destruct (H i Hi). split; auto.
  Qed.
  Lemma is_matrix_unique : forall A A', is_matrix k seed A -> is_matrix k seed A' -> A = A'.
  Proof.
    intros A A' [L H] [L' H']. apply (nth_ext_gen _ []). congruence. rewrite L. intros i Hi.
    destruct (H i Hi) as [Li E], (H' i Hi) as [Li' E']. apply (nth_ext_gen _ []). congruence. rewrite Li. intros j Hj.
    eapply SampleNTT_unique; eauto.
  Qed.
  Lemma is_matrix_Rq : forall A, is_matrix k seed A -> Forall (fun row => length row = k /\ Forall Rq row) A.
  Proof.
    intros A [L H]. apply Forall_nth. intros i d Hi. rewrite (nth_indep _ d []) by auto. rewrite L in Hi. destruct (H i Hi) as [Li E].
    split; auto. apply Forall_nth. intros j d' Hj. rewrite (nth_indep _ d' []) by auto. rewrite Li in Hj.
    apply (SampleNTT_range (seed ++ [Z.of_nat j] ++ [Z.of_nat i])); auto.
    apply bytes_app; auto. constructor. apply byte_idx; auto. constructor. apply byte_idx; auto. constructor.
  Qed.
End Mat.

(** ** representation: [rp B f F]: the int16 polynomial f, bounded by B, stands for F in Z_q^256 *)
Definition rp (B : Z) (f F : list Z) : Prop := polyw B f /\ M q f = F.
Definition vR (B : Z) (v V : list (list Z)) : Prop := Forall2 (rp B) v V.

Lemma rp_M : forall B f F, rp B f F -> M q F = M q f.
Proof. intros B f F [_ <-]. apply M_M. exact q_pos. Qed.
Lemma rp_len : forall B f F, rp B f F -> length F = 256%nat.
Proof. intros B f F [[L _] <-]. rewrite length_M. exact L. Qed.
Lemma rp_weaken : forall B B' f F, B <= B' -> rp B f F -> rp B' f F.
Proof. intros B B' f F H [W E]. split; auto. eapply polyw_weaken; eauto. Qed.
Lemma rp_ntt : forall f F, rp 3328 f F -> rp 1664 (poly_ntt f) (NTT F).
Proof.
  intros f F H. pose proof (rp_M _ _ _ H) as E. destruct H as [W _]. destruct (poly_ntt_ok f W) as [E' W']. split; auto.
  rewrite E'. symmetry. apply NTT_M. exact E.
Qed.
Lemma rp_add : forall B C f F g G, rp B f F -> rp C g G -> B + C <= 32767 -> rp (B + C) (poly_add f g) (Radd F G).
Proof.
  intros B C f F g G HF HG H. pose proof (rp_M _ _ _ HF) as EF. pose proof (rp_M _ _ _ HG) as EG. destruct HF as [WF _], HG as [WG _].
  destruct (poly_add_ok f g B C WF WG H) as [E W]. split; auto. rewrite E. unfold Radd. apply M_padd; auto. exact q_pos.
Qed.
Lemma rp_sub : forall B C f F g G, rp B f F -> rp C g G -> B + C <= 32767 -> rp (B + C) (poly_sub f g) (Rsub F G).
Proof.
  intros B C f F g G HF HG H. pose proof (rp_M _ _ _ HF) as EF. pose proof (rp_M _ _ _ HG) as EG. destruct HF as [WF _], HG as [WG _].
  destruct (poly_sub_ok f g B C WF WG H) as [E W]. split; auto. rewrite E. unfold Rsub. apply M_psub; auto.
Qed.
Lemma rp_reduce : forall B f F, B <= 32767 -> rp B f F -> rp 1664 (poly_reduce f) F.
Proof. intros B f F H [W <-]. destruct (poly_reduce_ok f B H W) as [E W']. split; auto. Qed.

Definition P169 (x : list Z) : list Z := M q (pscale 169 x).
Lemma pscale_M2 : forall c d x, M q (pscale c (M q (pscale d x))) = M q (pscale (c * d) x).
Proof.
  intros. apply M_ext. rewrite !length_pscale, length_M, length_pscale. auto. intros i.
  intros. rewrite !nth_pscale, nth_M, nth_pscale. rewrite Z.mul_mod_idemp_r by (unfold q; lia). f_equal. lia.
Qed.
Lemma pscale_1 : forall c x, c mod q = 1 -> M q (pscale c x) = M q x.
Proof.
  intros c x H. apply M_ext. apply length_pscale. intros i. intros. rewrite nth_pscale. rewrite <- Z.mul_mod_idemp_l, H by (unfold q; lia). f_equal. lia.
Qed.
Lemma Radd_M_l : forall a b, Radd (M q a) b = Radd a b.
Proof. intros. unfold Radd. apply M_padd. exact q_pos. apply M_M. exact q_pos. auto. Qed.
Lemma Radd_M_r : forall a b, Radd a (M q b) = Radd a b.
Proof. intros. unfold Radd. apply M_padd. exact q_pos. auto. apply M_M. exact q_pos. Qed.
Lemma M_Radd : forall a b, M q (Radd a b) = Radd a b.
Proof. intros. unfold Radd. apply M_M. exact q_pos. Qed.
Lemma length_Radd : forall a b, length a = 256%nat -> length b = 256%nat -> length (Radd a b) = 256%nat.
Proof. intros. unfold Radd. rewrite length_M, length_padd. lia. Qed.
Lemma length_dot : forall a b, length (dotNTT a b) = 256%nat.
Proof. induction a; intros [|y b]; cbn [dotNTT]; try reflexivity. apply length_Radd. apply length_Mul. auto. Qed.
Lemma M_dot : forall a b, M q (dotNTT a b) = dotNTT a b.
Proof. intros [|x a] [|y b]; cbn [dotNTT]; try reflexivity. apply M_Radd. Qed.
Lemma padd_assoc : forall a b c, padd a (padd b c) = padd (padd a b) c.
Proof. induction a; intros [|y b] [|z c]; cbn [padd]; try reflexivity. rewrite IHa. f_equal. lia. Qed.
Lemma Radd_assoc : forall a b c, Radd a (Radd b c) = Radd (Radd a b) c.
Proof. intros. unfold Radd at 2. rewrite Radd_M_r. unfold Radd at 2. unfold Radd. rewrite padd_assoc. apply M_padd; auto. exact q_pos. symmetry. apply M_M. exact q_pos. Qed.
Lemma padd_0_r : forall a, length a = 256%nat -> padd a Rzero = a.
Proof.
  intros a L. apply nth_ext0. rewrite length_padd, L. reflexivity. intros i Hi. rewrite nth_padd by (rewrite L; reflexivity).
  unfold Rzero. rewrite nth_zeros. lia.
Qed.
Lemma Radd_0_r : forall a, length a = 256%nat -> Radd a Rzero = M q a.
Proof. intros. unfold Radd. rewrite padd_0_r; auto. Qed.
Lemma pscale_padd : forall c a b, pscale c (padd a b) = padd (pscale c a) (pscale c b).
Proof. intros c. induction a; intros [|y b]; cbn [padd pscale map]; try reflexivity. unfold pscale in IHa. rewrite IHa. f_equal. lia. Qed.
Lemma P169_Radd : forall a b, Radd (P169 a) (P169 b) = P169 (Radd a b).
Proof.
  intros. unfold P169. rewrite Radd_M_l, Radd_M_r. unfold Radd. rewrite <- pscale_padd. apply M_pscale. exact q_pos. auto. symmetry. apply M_M. exact q_pos.
Qed.
Lemma P169_M : forall a, P169 (M q a) = P169 a.
Proof. intros. unfold P169. apply M_pscale. exact q_pos. auto. apply M_M. exact q_pos. Qed.

Lemma rp_basemul : forall A B a AA b BB, 0 <= A -> 0 <= B -> A * B <= 109084671 -> rp A a AA -> rp B b BB ->
  rp 6656 (poly_basemul_montgomery a b) (P169 (MultiplyNTTs AA BB)).
Proof.
  intros A B a AA b BB HA HB H Ha Hb. pose proof (rp_M _ _ _ Ha) as Ea. pose proof (rp_M _ _ _ Hb) as Eb. destruct Ha as [Wa _], Hb as [Wb _].
  destruct (poly_basemul_ok a b A B HA HB H Wa Wb) as [E W]. split; auto. rewrite E. unfold P169. rewrite (Mul_M a AA b BB); auto.
Qed.
Lemma rp_acc_loop : forall A B a AA b BB, 0 <= A -> 0 <= B -> A * B <= 109084671 -> vR A a AA -> vR B b BB ->
  forall C r X, length X = 256%nat -> rp C r (P169 X) -> C + 6656 * Z.of_nat (length a) <= 32767 ->
  rp (C + 6656 * Z.of_nat (length a)) (acc_loop r a b) (P169 (Radd X (dotNTT AA BB))).
Proof.
  intros A B a AA b BB HA HB H Ha. revert b BB. induction Ha as [|x xx a AA Hx Ha IH]; intros b BB Hb C r X LX Hr HC.
  - cbn [acc_loop dotNTT length]. rewrite Radd_0_r, P169_M by auto. replace (C + 6656 * Z.of_nat 0) with C by lia. auto.
  - destruct Hb as [|y yy b BB Hy Hb].
    + cbn [acc_loop dotNTT]. rewrite Radd_0_r, P169_M by auto. eapply rp_weaken; [|eauto]. lia.
    + cbn [acc_loop dotNTT length] in *. rewrite Radd_assoc. rewrite Nat2Z.inj_succ in *.
      replace (C + 6656 * Z.succ (Z.of_nat (length a))) with (C + 6656 + 6656 * Z.of_nat (length a)) by lia.
      apply IH; [auto| |rewrite <- P169_Radd|lia]. apply length_Radd; [auto|apply length_Mul].
      apply rp_add; [auto| |lia]. apply (rp_basemul A B); auto.
Qed.
Lemma rp_acc : forall A B a AA b BB, 0 <= A -> 0 <= B -> A * B <= 109084671 -> vR A a AA -> vR B b BB ->
  (1 <= length a <= 4)%nat -> length a = length b ->
  rp 1664 (polyvec_basemul_acc_montgomery a b) (P169 (dotNTT AA BB)).
Proof.
  intros A B a AA b BB HA HB H Ha Hb L E. destruct Ha as [|x xx a AA Hx Ha]; [cbn in L; lia|]. destruct Hb as [|y yy b BB Hy Hb]; [cbn in E; lia|].
  cbn [polyvec_basemul_acc_montgomery dotNTT]. apply (rp_reduce (6656 + 6656 * Z.of_nat (length a))). cbn [length] in L. lia.
  apply (rp_acc_loop A B); auto using length_Mul. apply (rp_basemul A B); auto. cbn [length] in L. lia.
Qed.
Lemma rp_invntt : forall f D, length D = 256%nat -> rp 1664 f (P169 D) -> rp 3328 (poly_invntt_tomont f) (NTTinv D).
Proof.
  intros f D LD H. pose proof (rp_M _ _ _ H) as E. destruct H as [W _]. unfold poly_invntt_tomont.
  destruct (kyber_invntt_ok f) as [E' W']. eapply polyw_weaken; [|eauto]. lia. split; auto. rewrite E'.
  rewrite (NTTinv_M f (pscale 169 D)). 2: { rewrite <- E. unfold P169. apply M_M. exact q_pos. }
  rewrite NTTinv_pscale, pscale_M2, pscale_1 by reflexivity. apply M_NTTinv.
Qed.
Lemma rp_tomont : forall f D, rp 1664 f (P169 D) -> rp 3328 (poly_tomont f) (M q D).
Proof.
  intros f D [[L W] E]. change (poly_tomont f) with (map (fun x => fqmul x 1353) f). split.
  - split. rewrite map_length. auto. apply (within_map _ 1664); auto. intros. apply fqmul_range. lia.
  - rewrite (M_map _ (fun x => 169 * 1353 * x) 1664 f); auto.
    + change (map (fun x => 169 * 1353 * x) f) with (pscale (169 * 1353) f).
      rewrite <- (pscale_1 (169 * 1353 * 169) D) by reflexivity. rewrite <- (pscale_M2 (169 * 1353) 169 D). apply M_pscale. exact q_pos. auto.
      unfold P169 in E. rewrite E. symmetry. apply M_M. exact q_pos.
    + intros. rewrite fqmul_mod by lia. f_equal. lia.
Qed.

(** ** hashing *)
Lemma kdf2_ok : forall a b n, bytes a -> bytes b -> Z.of_nat (length a + length b) < 2 ^ 64 -> kyber_kdf2 a b n = SHAKE256 (a ++ b) n.
Proof.
  intros a b n Ha Hb L. unfold kyber_kdf2.
  assert (C : concat [a; b] = a ++ b) by (cbn [concat]; rewrite app_nil_r; reflexivity). rewrite <- C.
  apply xof_streaming. repeat apply Forall_cons; auto. rewrite C, app_length. auto.
Qed.
Lemma getnoise_ok : forall eta s n, In eta [2%nat; 3%nat] -> bytes s -> length s = 32%nat -> (n <= 8)%nat ->
  rp 3 (poly_getnoise eta s n) (SamplePolyCBD eta (PRF eta s n)).
Proof.
  intros eta s n He Hs L Hn. unfold poly_getnoise, kyber_shake256_prf.
  assert (B : bytes [Z.of_nat n]) by (constructor; [unfold byte; lia|constructor]).
  rewrite kdf2_ok; auto. 2: { rewrite L. cbn. lia. }
  destruct (poly_cbd_ok eta (PRF eta s n) He) as (_ & E & W).
  - apply SHAKE256_bytes. apply bytes_app; auto.
  - apply SHAKE256_len.
  - split; auto.
Qed.
