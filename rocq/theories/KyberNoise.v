(** The decryption error of K-PKE: ring laws, the noise formula and the decoding bound. *)
From Verif Require Import Bytes Words ZUtil Fips202 PolyRing NttSim KyberModel KyberSpec KyberArith KyberNtt KyberNttModel KyberCodec KyberCodec2 KyberSample KyberVec KyberPke KyberKem.
Require Import Lia Setoid.

(** ** MultiplyNTTs is a commutative, associative, distributive product *)
Lemma Mul_even : forall a b i, (i < 128)%nat -> nth (2 * i) (MultiplyNTTs a b) 0 =
  (nth (2 * i) a 0 * nth (2 * i) b 0 + nth (2 * i + 1) a 0 * nth (2 * i + 1) b 0 * gam i) mod q.
Proof.
  intros a b i H. rewrite nth_Mul by lia. cbv beta zeta.
  replace (2 * i / 2)%nat with i by (rewrite Nat.mul_comm, Nat.div_mul; lia). replace ((2 * i) mod 2)%nat with 0%nat by (rewrite Nat.mul_comm, Nat.mod_mul; lia). reflexivity.
Qed.
Lemma Mul_odd : forall a b i, (i < 128)%nat -> nth (2 * i + 1) (MultiplyNTTs a b) 0 =
  (nth (2 * i) a 0 * nth (2 * i + 1) b 0 + nth (2 * i + 1) a 0 * nth (2 * i) b 0) mod q.
Proof.
  intros a b i H. rewrite nth_Mul by lia. cbv beta zeta.
  replace ((2 * i + 1) / 2)%nat with i by (rewrite Nat.mul_comm, Nat.div_add_l by lia; cbn; lia).
  replace ((2 * i + 1) mod 2)%nat with 1%nat by (rewrite Nat.add_comm, Nat.mul_comm, Nat.mod_add by lia; reflexivity). reflexivity.
Qed.
Lemma pair_ext : forall a b, length a = 256%nat -> length b = 256%nat ->
  (forall i, (i < 128)%nat -> nth (2 * i) a 0 = nth (2 * i) b 0 /\ nth (2 * i + 1) a 0 = nth (2 * i + 1) b 0) -> a = b.
Proof.
  intros a b La Lb H. apply nth_ext0. congruence. rewrite La. intros n Hn. destruct (divmod2 n Hn) as [E [H1 H2]].
  destruct (H _ H1) as [X Y]. destruct (n mod 2)%nat as [|[|k]]; [| |lia]; rewrite E; [rewrite Nat.add_0_r|]; auto.
Qed.
(** drop the inner reductions of an equation modulo q *)
Ltac strip t :=
  match t with
  | ?a mod q => let H := strip a in constr:(eq_trans (Zmod_mod a q) H)
  | ?a + ?b => let H := strip a in let K := strip b in constr:(Zplus_eqm q _ _ H _ _ K)
  | ?a - ?b => let H := strip a in let K := strip b in constr:(Zminus_eqm q _ _ H _ _ K)
  | ?a * ?b => let H := strip a in let K := strip b in constr:(Zmult_eqm q _ _ H _ _ K)
  | _ => constr:(@eq_refl Z (t mod q))
  end.
Ltac modq := match goal with |- ?x mod q = ?y mod q =>
  let H := strip x in let K := strip y in etransitivity; [exact H|]; etransitivity; [|symmetry; exact K]; apply (f_equal (fun z => z mod q)); ring end.
Lemma Mul_comm : forall a b, MultiplyNTTs a b = MultiplyNTTs b a.
Proof. intros. apply pair_ext; try apply length_Mul. intros i Hi. rewrite !Mul_even, !Mul_odd by auto. split; modq. Qed.
Lemma Mul_assoc : forall a b c, MultiplyNTTs (MultiplyNTTs a b) c = MultiplyNTTs a (MultiplyNTTs b c).
Proof. intros. apply pair_ext; try apply length_Mul. intros i Hi. repeat first [rewrite Mul_even by auto | rewrite Mul_odd by auto]. split; modq. Qed.
Lemma nth_Radd : forall a b i, length a = 256%nat -> length b = 256%nat -> nth i (Radd a b) 0 = (nth i a 0 + nth i b 0) mod q.
Proof. intros. unfold Radd. rewrite nth_M, nth_padd by congruence. reflexivity. Qed.
Lemma nth_Rsub : forall a b i, length a = 256%nat -> length b = 256%nat -> nth i (Rsub a b) 0 = (nth i a 0 - nth i b 0) mod q.
Proof. intros. unfold Rsub. rewrite nth_M, nth_psub by congruence. reflexivity. Qed.
Lemma length_Rsub : forall a b, length a = 256%nat -> length b = 256%nat -> length (Rsub a b) = 256%nat.
Proof. intros. unfold Rsub. rewrite length_M, length_psub. lia. Qed.
Lemma Mul_add_l : forall a b c, length a = 256%nat -> length b = 256%nat ->
  MultiplyNTTs (Radd a b) c = Radd (MultiplyNTTs a c) (MultiplyNTTs b c).
Proof.
  intros a b c La Lb. apply pair_ext. apply length_Mul. apply length_Radd; apply length_Mul.
  intros i Hi. rewrite ?Mul_even, ?Mul_odd by auto. rewrite !(nth_Radd a b) by auto. rewrite !nth_Radd by apply length_Mul. rewrite ?Mul_even, ?Mul_odd by auto. split; modq.
Qed.
Lemma Mul_add_r : forall a b c, length a = 256%nat -> length b = 256%nat ->
  MultiplyNTTs c (Radd a b) = Radd (MultiplyNTTs c a) (MultiplyNTTs c b).
Proof. intros. rewrite Mul_comm, Mul_add_l, (Mul_comm a), (Mul_comm b) by auto. reflexivity. Qed.
Lemma Radd_comm : forall a b, Radd a b = Radd b a.
Proof. intros a b. unfold Radd. apply (f_equal (M q)). revert b. induction a; intros [|y b]; cbn [padd]; auto. rewrite IHa. f_equal. lia. Qed.
Lemma Mul_0_r : forall a, MultiplyNTTs a Rzero = Rzero.
Proof.
  intros. apply pair_ext. apply length_Mul. reflexivity. intros i Hi. rewrite Mul_even, Mul_odd by auto. unfold Rzero. rewrite !nth_zeros.
  rewrite !Z.mul_0_r. split; reflexivity.
Qed.
Lemma Radd_swap : forall a b c d, Radd (Radd a b) (Radd c d) = Radd (Radd a c) (Radd b d).
Proof. intros. rewrite <- !Radd_assoc. rewrite (Radd_assoc b), (Radd_comm b c), <- (Radd_assoc c). reflexivity. Qed.

(** ** vectors: addition and dot product *)
Definition v256 (v : list (list Z)) : Prop := Forall (fun f => length f = 256%nat) v.
Lemma dot_comm : forall a b, dotNTT a b = dotNTT b a.
Proof. induction a; intros [|y b]; cbn [dotNTT]; auto. rewrite Mul_comm, IHa. reflexivity. Qed.
Lemma Radd_0_0 : Radd Rzero Rzero = Rzero.
Proof. rewrite Radd_0_r by reflexivity. reflexivity. Qed.
Lemma dot_zadd_r : forall s a b, length s = length a -> length a = length b -> v256 a -> v256 b -> dotNTT s (zadd a b) = Radd (dotNTT s a) (dotNTT s b).
Proof.
  induction s as [|x s IH]; intros [|y a] [|z b] L1 L2 Ha Hb; cbn [zadd dotNTT length] in *; try lia. symmetry; apply Radd_0_0.
  rewrite IH by (try lia; eapply Forall_inv_tail; eauto). rewrite Mul_add_r by first [exact (Forall_inv Ha)|exact (Forall_inv Hb)]. apply Radd_swap.
Qed.
Lemma dot_zadd_l : forall s a b, length s = length a -> length a = length b -> v256 a -> v256 b -> dotNTT (zadd a b) s = Radd (dotNTT a s) (dotNTT b s).
Proof. intros. rewrite dot_comm, dot_zadd_r, (dot_comm s a), (dot_comm s b) by auto. reflexivity. Qed.
Lemma dot_zero_r : forall (A : Type) s (l : list A), dotNTT s (map (fun _ => Rzero) l) = Rzero.
Proof. intros A. induction s; intros [|y l]; cbn [map dotNTT]; auto. rewrite Mul_0_r, IHs. apply Radd_0_0. Qed.
Lemma dot_mul : forall s row y, dotNTT s (map (fun x => MultiplyNTTs x y) row) = MultiplyNTTs (dotNTT row s) y.
Proof.
  induction s as [|x s IH]; intros [|r row] y; cbn [map dotNTT]; try (rewrite Mul_comm, Mul_0_r; reflexivity).
  rewrite IH. rewrite Mul_add_l by (apply length_Mul || apply length_dot). f_equal.
  rewrite (Mul_comm r x), Mul_assoc. reflexivity.
Qed.
(** columns of a list of rows *)
Definition cols (k : nat) (A : list (list (list Z))) : list (list (list Z)) := map (fun j => map (fun row => nth j row []) A) (seq 0 k).
Lemma cols_transpose : forall k A, length A = k -> transpose k A = cols k A.
Proof.
  intros k A L. unfold transpose, cols. apply map_ext. intros j. apply (nth_ext_gen _ []). rewrite !map_length, seq_length. auto.
  rewrite map_length, seq_length. intros i Hi. rewrite nth_map_seq_gen by auto. cbn [Nat.add].
  rewrite (nth_indep (map _ A) [] ((fun row => nth j row []) [])) by (rewrite map_length; lia). symmetry. exact (map_nth (fun row : list (list Z) => nth j row []) A [] i).
Qed.
Lemma map_seq_nth : forall (A : Type) (f : list Z -> A) row k, length row = k -> map (fun j => f (nth j row [])) (seq 0 k) = map f row.
Proof.
  intros A f. induction row as [|x row IH]; intros k L; subst k; cbn [length seq map]; auto. f_equal.
  rewrite <- seq_shift, map_map. cbn [nth]. apply IH. reflexivity.
Qed.
Lemma zadd_map : forall (f g : nat -> list Z) l, zadd (map f l) (map g l) = map (fun i => Radd (f i) (g i)) l.
Proof. induction l; cbn [map zadd]; auto. rewrite IHl. reflexivity. Qed.
Lemma double_sum : forall k s A y, length s = k -> Forall (fun row => length row = k) A -> length y = length A ->
  dotNTT (map (fun row => dotNTT row s) A) y = dotNTT s (map (fun col => dotNTT col y) (cols k A)).
Proof.
  intros k s A y Ls H. revert y. induction H as [|row A L H IH]; intros y Ly.
  - destruct y; [|cbn in Ly; lia]. cbn [map dotNTT]. unfold cols. rewrite map_map. cbn [map dotNTT].
    rewrite (dot_zero_r nat). reflexivity.
  - destruct y as [|y0 y]; [cbn in Ly; lia|]. cbn [map dotNTT]. rewrite IH by (cbn in Ly; lia).
    unfold cols. rewrite !map_map. cbn [map dotNTT].
    rewrite <- (zadd_map (fun j => MultiplyNTTs (nth j row []) y0) (fun j => dotNTT (map (fun r => nth j r []) A) y)).
    rewrite dot_zadd_r.
    + f_equal. rewrite (map_seq_nth _ (fun x => MultiplyNTTs x y0) row k L). symmetry. apply dot_mul.
    + rewrite map_length, seq_length. auto.
    + rewrite !map_length. auto.
    + apply Forall_map. apply Forall_forall. intros. apply length_Mul.
    + apply Forall_map. apply Forall_forall. intros. apply length_dot.
Qed.

(** ** linearity of the transforms *)
Lemma NTT_Radd : forall a b, length a = 256%nat -> length b = 256%nat -> NTT (Radd a b) = Radd (NTT a) (NTT b).
Proof.
  intros a b La Lb. apply nth_ext0. rewrite length_NTT, length_Radd; auto using length_NTT. rewrite length_NTT. intros n Hn.
  rewrite nth_Radd by apply length_NTT. rewrite !nth_NTT by auto. rewrite <- Zplus_mod, <- zsum_add. apply M_zsum. exact q_pos.
  intros i Hi. rewrite nth_Radd by auto. modq.
Qed.
Lemma NTTinv_Radd : forall a b, length a = 256%nat -> length b = 256%nat -> NTTinv (Radd a b) = Radd (NTTinv a) (NTTinv b).
Proof.
  intros a b La Lb. apply nth_ext0. rewrite length_NTTinv, length_Radd; auto using length_NTTinv. rewrite length_NTTinv. intros n Hn.
  rewrite nth_Radd by apply length_NTTinv. rewrite !nth_NTTinv by auto. rewrite <- Zplus_mod, <- Z.mul_add_distr_l, <- zsum_add.
  rewrite Z.mul_mod, (Z.mul_mod 3303 (zsum _ _)) by (unfold q; lia). f_equal. f_equal. apply M_zsum. exact q_pos.
  intros i Hi. rewrite nth_Radd by auto. modq.
Qed.

(** ** the noise formula *)
Lemma length_Rmul : forall a b, length (Rmul a b) = 256%nat.
Proof. intros. unfold Rmul. rewrite length_M. unfold conv. rewrite map_length, seq_length. reflexivity. Qed.
Lemma length_Rdot : forall a b, length (Rdot a b) = 256%nat.
Proof. induction a; intros [|y b]; cbn [Rdot]; try reflexivity. apply length_Radd; [apply length_Rmul|apply IHa]. Qed.
Lemma NTTinv_zero : NTTinv Rzero = Rzero.
Proof.
  apply nth_ext0. apply length_NTTinv. rewrite length_NTTinv. intros n Hn. rewrite nth_NTTinv by auto. unfold Rzero.
  rewrite (zsum_ext _ _ (fun _ => 0)) by (intros; rewrite nth_zeros; apply Z.mul_0_l). rewrite zsum_0, nth_zeros. reflexivity.
Qed.
Lemma NTTinv_dot : forall a b, length a = length b -> v256 a -> v256 b -> NTTinv (dotNTT (map NTT a) (map NTT b)) = Rdot a b.
Proof.
  induction a as [|x a IH]; intros [|y b] L Ha Hb; cbn [map dotNTT Rdot length] in *; try lia. apply NTTinv_zero.
  rewrite NTTinv_Radd by (apply length_Mul || apply length_dot). rewrite NTTinv_mul by first [exact (Forall_inv Ha)|exact (Forall_inv Hb)].
  rewrite IH; auto. eapply Forall_inv_tail; eauto. eapply Forall_inv_tail; eauto.
Qed.
Lemma M_Rsub : forall a b, M q (Rsub a b) = Rsub a b.
Proof. intros. unfold Rsub. apply M_M. exact q_pos. Qed.
Lemma Radd_Rsub : forall a b, length a = 256%nat -> length b = 256%nat -> Radd a (Rsub b a) = M q b.
Proof.
  intros a b La Lb. apply nth_ext0. rewrite length_M, length_Radd; auto using length_Rsub. rewrite length_Radd by auto using length_Rsub.
  intros i Hi. rewrite nth_Radd, nth_Rsub, nth_M by auto using length_Rsub. modq.
Qed.

Lemma NTT_u_gen : forall yh k e1 cu C, length e1 = k -> v256 e1 -> length cu = k -> v256 cu -> length C = k ->
  map NTT (zadd (zadd (map (fun col => NTTinv (dotNTT col yh)) C) e1) cu) = zadd (map (fun col => dotNTT col yh) C) (map NTT (zadd e1 cu)).
Proof.
  intros yh. induction k; intros [|x e1] [|z cu] [|c C] L1 H1 L2 H2 L3; cbn [length] in *; try lia; cbn [map zadd]; auto.
  pose proof (Forall_inv H1) as Lx. pose proof (Forall_inv H2) as Lz. cbv beta in Lx, Lz. rewrite IHk; try lia; try exact (Forall_inv_tail H1); try exact (Forall_inv_tail H2).
  apply f_equal2; [|reflexivity].
  rewrite <- Radd_assoc. rewrite NTT_Radd; [|apply length_NTTinv|apply length_Radd; assumption]. rewrite NTT_NTTinv by apply length_dot. rewrite M_dot. reflexivity.
Qed.

Section Noise.
  Variables (k : nat) (A : list (list (list Z))) (s e y e1 : list (list Z)) (e2 mu : list Z) (cu : list (list Z)) (cv : list Z).
  Hypothesis LA : length A = k.
  Hypothesis HA : Forall (fun row => length row = k) A.
  Hypothesis Ls : length s = k. Hypothesis Hs : v256 s.
  Hypothesis Le : length e = k. Hypothesis He : v256 e.
  Hypothesis Ly : length y = k. Hypothesis Hy : v256 y.
  Hypothesis Le1 : length e1 = k. Hypothesis He1 : v256 e1.
  Hypothesis Lcu : length cu = k. Hypothesis Hcu : v256 cu.
  Hypothesis Le2 : length e2 = 256%nat.
  Hypothesis Lmu : length mu = 256%nat.
  Hypothesis Lcv : length cv = 256%nat.
  Let sh := map NTT s.
  Let yh := map NTT y.
  Let t := zadd (map (fun row => dotNTT row sh) A) (map NTT e).
  Let u := zadd (map (fun col => NTTinv (dotNTT col yh)) (cols k A)) e1.
  Let v := Radd (Radd (NTTinv (dotNTT t yh)) e2) mu.
  Lemma v256_map_dot : forall (l : list (list (list Z))) z, v256 (map (fun row => dotNTT row z) l).
  Proof. intros. apply Forall_map. apply Forall_forall. intros. apply length_dot. Qed.
  Lemma v256_NTT : forall z, v256 (map NTT z).
  Proof. intros. apply Forall_map. apply Forall_forall. intros. apply length_NTT. Qed.
  Lemma length_zadd : forall a b, length a = length b -> length (zadd a b) = length a.
  Proof. induction a as [|x a IH]; intros [|z b] L; cbn [zadd length] in L |- *; try lia. rewrite IH by lia. reflexivity. Qed.
  Lemma v256_zadd : forall a b, v256 a -> v256 b -> v256 (zadd a b).
  Proof.
    intros a b Ha. revert b. induction Ha as [|x a Lx Ha IH]; intros [|z b] Hb; cbn [zadd]; try constructor. 
    apply length_Radd; auto. exact (Forall_inv Hb). apply IH. exact (Forall_inv_tail Hb).
  Qed.
  Lemma NTT_u : map NTT (zadd u cu) = zadd (map (fun col => dotNTT col yh) (cols k A)) (map NTT (zadd e1 cu)).
  Proof.
    unfold u. apply (NTT_u_gen yh k); auto. unfold cols. rewrite map_length. apply seq_length.
  Qed.
  Theorem noise_formula : Rsub (Radd v cv) (NTTinv (dotNTT sh (map NTT (zadd u cu)))) =
    Radd mu (Rsub (Radd (Radd (Rdot e y) e2) cv) (Rdot s (zadd e1 cu))).
  Proof.
    assert (Lc : length (cols k A) = k) by (unfold cols; rewrite map_length; apply seq_length).
    assert (Lz : length (zadd e1 cu) = k) by (rewrite length_zadd; congruence).
    rewrite NTT_u. rewrite dot_zadd_r.
    2: { unfold sh. rewrite !map_length. congruence. } 2: { rewrite !map_length. congruence. } 2: apply v256_map_dot. 2: apply v256_NTT.
    rewrite NTTinv_Radd by apply length_dot. unfold sh at 2. rewrite NTTinv_dot; auto. 2: congruence. 2: { apply v256_zadd; auto. }
    unfold v, t. rewrite dot_zadd_l. 2: { unfold yh. rewrite !map_length. congruence. } 2: { rewrite !map_length. congruence. } 2: apply v256_map_dot. 2: apply v256_NTT.
    rewrite NTTinv_Radd by apply length_dot. unfold yh at 2. rewrite NTTinv_dot; auto. 2: congruence.
    rewrite (double_sum k); auto. 2: { unfold sh. rewrite map_length. auto. } 2: { unfold yh. rewrite map_length. congruence. }
    set (X := NTTinv _). assert (LX : length X = 256%nat) by apply length_NTTinv. clearbody X.
    pose proof (length_Rdot e y) as L1. pose proof (length_Rdot s (zadd e1 cu)) as L2. set (EY := Rdot e y) in *. set (SE := Rdot s (zadd e1 cu)) in *. clearbody EY SE.
    assert (R : forall a b, length a = 256%nat -> length b = 256%nat -> length (Radd a b) = 256%nat) by apply length_Radd.
    assert (R' : forall a b, length a = 256%nat -> length b = 256%nat -> length (Rsub a b) = 256%nat) by apply length_Rsub.
    apply nth_ext0. rewrite R', R; auto 10. rewrite R' by auto 10. intros i Hi.
    rewrite !nth_Rsub, !nth_Radd, ?nth_Rsub, ?nth_Radd by auto 10. repeat (rewrite nth_Radd by auto 10). modq.
  Qed.
End Noise.

(** ** decoding one bit *)
Definition bit_chk (n : Z) : bool := (Compress 1 ((Decompress 1 0 + n) mod q) =? 0) && (Compress 1 ((Decompress 1 1 + n) mod q) =? 1).
Lemma bit_chk_ok : zall bit_chk (-831) (Z.to_nat 1663) = true.
Proof. vm_compute. reflexivity. Qed.
Lemma bit_decode : forall b n, 0 <= b < 2 -> -831 <= cmod n <= 831 -> Compress 1 ((Decompress 1 b + n) mod q) = b.
Proof.
  intros b n Hb Hn. pose proof (zall_ok _ _ _ bit_chk_ok (cmod n)) as H. rewrite Z2Nat.id in H by lia. specialize (H ltac:(lia)).
  apply andb_prop in H. destruct H as [H0 H1]. apply Z.eqb_eq in H0, H1.
  assert (E : forall c, (c + cmod n) mod q = (c + n) mod q).
  { intros c. rewrite <- (Z.add_mod_idemp_r c n), <- (cmod_mod n), Z.add_mod_idemp_r by (unfold q; lia). reflexivity. }
  rewrite E in H0, H1. assert (b = 0 \/ b = 1) as [->| ->] by lia; auto.
Qed.

(** ** encodings of vectors *)
Lemma vdecode_flat : forall d, (0 < d)%nat -> forall V k rest, length V = k -> Forall (fun f => length f = 256%nat /\ Forall (fun x => 0 <= x < 2 ^ Z.of_nat d) f) V ->
  vdecode k d (flat_map (ByteEncode d) V ++ rest) = V /\ skipn (32 * d * k) (flat_map (ByteEncode d) V ++ rest) = rest.
Proof.
  intros d Hd. assert (G : forall V k rest, length V = k -> Forall (fun f => length f = 256%nat /\ Forall (fun x => 0 <= x < 2 ^ Z.of_nat d) f) V ->
    map (ByteDecode d) (cut k (32 * d) (flat_map (ByteEncode d) V ++ rest)) = V /\ skipn (32 * d * k) (flat_map (ByteEncode d) V ++ rest) = rest).
  { induction V as [|f V IH]; intros k rest L H; subst k; cbn [length cut map flat_map].
    - rewrite Nat.mul_0_r. auto.
    - destruct (Forall_inv H) as [Lf Hf]. rewrite <- app_assoc.
      assert (LE := length_ByteEncode d f).
      destruct (IH (length V) rest eq_refl (Forall_inv_tail H)) as [I1 I2].
      rewrite firstn_app, LE, Nat.sub_diag, (firstn_all2 (ByteEncode d f)) by lia. change (firstn 0 (flat_map (ByteEncode d) V ++ rest)) with (@nil Z). rewrite app_nil_r.
      replace (skipn (32 * d) (ByteEncode d f ++ flat_map (ByteEncode d) V ++ rest)) with (flat_map (ByteEncode d) V ++ rest).
      2: { rewrite skipn_app, LE, Nat.sub_diag. rewrite skipn_all2 by lia. reflexivity. }
      split. rewrite I1, ByteDecode_Encode by auto. reflexivity.
      rewrite skipn_app, LE. rewrite skipn_all2 by nia. cbn [app]. rewrite <- I2 at 2. f_equal. nia. }
  intros V k rest L H. unfold vdecode. destruct (G V k rest L H) as [G1 G2]. split; auto. rewrite cut_piece, map_map in G1. exact G1.
Qed.
Lemma M_fix_range : forall f, M q f = f -> Forall (fun x => 0 <= x < q) f.
Proof. intros f H. rewrite <- H. apply Forall_map. apply Forall_forall. intros. apply Z.mod_pos_bound. reflexivity. Qed.
Lemma v256_noise : forall k eta s st, v256 (noise k eta s st) /\ length (noise k eta s st) = k.
Proof.
  intros. unfold noise. split. apply Forall_map. apply Forall_forall. intros. unfold SamplePolyCBD. rewrite map_length. apply seq_length.
  rewrite map_length. apply seq_length.
Qed.
Lemma M_vadd : forall k a b, map (M q) (vadd k a b) = vadd k a b.
Proof. intros. unfold vadd. rewrite map_map. apply map_ext. intros. apply M_Radd. Qed.
Lemma M_mapNTT : forall l, map (M q) (map NTT l) = map NTT l.
Proof. intros. rewrite map_map. apply map_ext. intros. apply M_NTT. Qed.
Lemma fixed_enc : forall V, map (M q) V = V -> v256 V -> Forall (fun f => length f = 256%nat /\ Forall (fun x => 0 <= x < 2 ^ Z.of_nat 12) f) V.
Proof.
  intros V H L. rewrite <- H. apply Forall_map. eapply Forall_impl; [|exact L]. intros f Lf. split. rewrite length_M. auto.
  eapply Forall_impl; [|apply (M_fix_range (M q f)); apply M_M; exact q_pos]. cbv beta. intros x Hx. unfold q in Hx. cbn. lia.
Qed.
Lemma comp_enc : forall d V, v256 V -> Forall (fun f => length f = 256%nat /\ Forall (fun x => 0 <= x < 2 ^ Z.of_nat d) f) (map (map (Compress (Z.of_nat d))) V).
Proof. intros d V L. apply Forall_map. eapply Forall_impl; [|exact L]. intros f Lf. split. rewrite map_length. auto. apply Forall_Compress. lia. Qed.
Lemma flat_map_map : forall (A B C : Type) (f : A -> B) (g : B -> list C) l, flat_map g (map f l) = flat_map (fun x => g (f x)) l.
Proof. intros. induction l; cbn [map flat_map]; auto. rewrite IHl. reflexivity. Qed.
Lemma v256_vadd : forall k a b, length a = k -> length b = k -> v256 a -> v256 b -> v256 (vadd k a b).
Proof. intros. rewrite vadd_zadd by auto. apply v256_zadd; auto. Qed.
Lemma round_back : forall d f, length f = 256%nat -> M q (map (fun x => Decompress (Z.of_nat d) (Compress (Z.of_nat d) x)) f) = Radd f (rounding d f).
Proof. intros d f L. unfold rounding. rewrite Radd_Rsub; auto. rewrite map_length. auto. Qed.
Lemma Rsub_M_l : forall a b, Rsub (M q a) b = Rsub a b.
Proof. intros. unfold Rsub. apply M_psub; auto. apply M_M. exact q_pos. Qed.

Theorem pke_correct : forall k eta1 du dv A d m r, (0 < k < 256)%nat -> In du [10%nat; 11%nat] -> In dv [4%nat; 5%nat] ->
  length A = k -> Forall (fun row => length row = k) A -> bytes m -> length m = 32%nat ->
  Forall (fun x => -831 <= cmod x <= 831) (KPKE_noise k eta1 du dv A d m r) ->
  KPKE_Decrypt k du dv (snd (KPKE_KeyGen k eta1 A d)) (KPKE_Encrypt k eta1 du dv A (fst (KPKE_KeyGen k eta1 A d)) m r) = m.
Proof.
  intros k eta1 du dv A d m r Hk Hdu Hdv LA HA Hm Lm. unfold KPKE_noise, KPKE_KeyGen, KPKE_Encrypt, KPKE_Decrypt. cbn [fst snd]. cbv zeta.
  destruct (v256_noise k eta1 (KPKE_sigma k d) 0) as [Hs Ls]. set (s := noise k eta1 (KPKE_sigma k d) 0) in *.
  destruct (v256_noise k eta1 (KPKE_sigma k d) k) as [He Le]. set (e := noise k eta1 (KPKE_sigma k d) k) in *.
  destruct (v256_noise k eta1 r 0) as [Hy Ly]. set (y := noise k eta1 r 0) in *.
  destruct (v256_noise k 2 r k) as [He1 Le1]. set (e1 := noise k 2 r k) in *.
  assert (Le2 : length (SamplePolyCBD 2 (PRF 2 r (2 * k))) = 256%nat) by (unfold SamplePolyCBD; rewrite map_length; apply seq_length).
  set (e2 := SamplePolyCBD 2 (PRF 2 r (2 * k))) in *. set (rho := KPKE_rho k d). clearbody s e y e1 e2 rho.
  set (t := vadd k (map (fun row => dotNTT row (map NTT s)) A) (map NTT e)).
  assert (Lt : length t = k) by apply length_vadd.
  assert (Ht : v256 t). { apply v256_vadd; rewrite ?map_length; auto. apply v256_map_dot. apply v256_NTT. }
  destruct (vdecode_flat 12 ltac:(lia) t k rho Lt (fixed_enc t (M_vadd _ _ _) Ht)) as [E1 _]. rewrite E1. clear E1.
  assert (Mt : map (M q) t = t) by apply M_vadd. rewrite Mt.
  destruct (vdecode_flat 12 ltac:(lia) (map NTT s) k [] ltac:(rewrite map_length; auto) (fixed_enc _ (M_mapNTT s) (v256_NTT s))) as [E1 _].
  rewrite app_nil_r in E1. rewrite E1. clear E1. rewrite M_mapNTT.
  set (u := vadd k (map (fun row => NTTinv (dotNTT row (map NTT y))) (transpose k A)) e1).
  assert (Hu : v256 u). { apply v256_vadd; auto. rewrite map_length. apply length_transpose. apply Forall_map. apply Forall_forall. intros. apply length_NTTinv. }
  assert (Lu : length u = k) by apply length_vadd.
  set (mu := map (Decompress 1) (ByteDecode 1 m)). assert (Lmu : length mu = 256%nat) by (unfold mu; rewrite map_length; apply length_ByteDecode).
  set (v := Radd (Radd (NTTinv (dotNTT t (map NTT y))) e2) mu).
  assert (Lv : length v = 256%nat) by (apply length_Radd; [apply length_Radd; [apply length_NTTinv|]|]; auto).
  assert (Hd : (0 < du)%nat) by (destruct Hdu as [<-|[<-|[]]]; lia).
  destruct (vdecode_flat du Hd (map (map (Compress (Z.of_nat du))) u) k (ByteEncode dv (map (Compress (Z.of_nat dv)) v)) ltac:(rewrite map_length; auto) (comp_enc du u Hu)) as [E1 E2].
  rewrite flat_map_map in E1, E2. rewrite E1, E2. clear E1 E2.
  rewrite (ByteDecode_Encode dv) by (try apply Forall_Compress; rewrite ?map_length; auto; destruct Hdv as [<-|[<-|[]]]; lia).
  rewrite !map_map.
  intros HN.
  set (cu := map (rounding du) u) in *. set (cv := rounding dv v) in *.
  assert (Hr : forall dd f, length f = 256%nat -> length (rounding dd f) = 256%nat) by (intros; unfold rounding; apply length_Rsub; rewrite ?map_length; auto).
  assert (Lcu : length cu = k) by (unfold cu; rewrite map_length; auto).
  assert (Hcu : v256 cu) by (apply Forall_map; eapply Forall_impl; [|exact Hu]; intros; apply Hr; auto).
  assert (Lcv : length cv = 256%nat) by (apply Hr; auto).
  assert (U : map (fun x => NTT (map (Decompress (Z.of_nat du)) (map (Compress (Z.of_nat du)) x))) u = map NTT (zadd u cu)).
  { unfold cu. clear - Hu. induction Hu as [|f u Lf Hu IH]; cbn [map zadd]; auto. rewrite IH. apply f_equal2; auto.
    apply NTT_M. rewrite map_map, M_Radd. apply round_back; auto. }
  rewrite U. clear U.
  rewrite <- (Rsub_M_l (map _ v)). rewrite (round_back dv v Lv). fold cv.
  assert (N := noise_formula k A s e y e1 e2 mu cu cv LA HA Ls Hs Le He Ly Hy Le1 He1 Lcu Hcu Le2 Lmu Lcv).
  assert (Tz : t = zadd (map (fun row => dotNTT row (map NTT s)) A) (map NTT e)) by (apply vadd_zadd; rewrite map_length; auto).
  assert (Uz : u = zadd (map (fun col => NTTinv (dotNTT col (map NTT y))) (cols k A)) e1) by (unfold u; rewrite vadd_zadd, cols_transpose; auto; rewrite map_length; apply length_transpose).
  rewrite <- Tz, <- Uz in N. fold v in N. rewrite N.
  rewrite (vadd_zadd k e1 cu) in HN by auto.
  set (NN := Rsub (Radd (Radd (Rdot e y) e2) cv) (Rdot s (zadd e1 cu))) in *.
  assert (LN : length NN = 256%nat). { unfold NN. apply length_Rsub; [|apply length_Rdot]. apply length_Radd; auto. apply length_Radd; auto. apply length_Rdot. }
  assert (D : map (Compress 1) (Radd mu NN) = ByteDecode 1 m).
  { apply nth_ext0. rewrite map_length, length_Radd, length_ByteDecode; auto. rewrite map_length, length_Radd by auto. intros i Hi.
    rewrite (nth_indep _ 0 (Compress 1 0)) by (rewrite map_length, length_Radd; auto). rewrite map_nth, nth_Radd by auto.
    unfold mu. rewrite (nth_indep _ 0 (Decompress 1 0)) by (rewrite map_length, length_ByteDecode; auto). rewrite map_nth.
    apply bit_decode.
    - pose proof (ByteDecode_range 1 m) as R. rewrite Forall_forall in R. apply R. apply nth_In. rewrite length_ByteDecode. auto.
    - rewrite Forall_forall in HN. apply HN. apply nth_In. lia. }
  rewrite D. apply ByteEncode_Decode; auto.
Qed.
