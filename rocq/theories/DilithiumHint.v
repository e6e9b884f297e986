(** The polynomial codecs as a whole, and the encoding of the hint [dilithium_pack.h]. *)
From Verif Require Import Bytes Words ZUtil KeccakBytes PolyRing NttSim KyberModel KyberSpec KyberCodec KyberCodec2 DilithiumModel DilithiumSpec DilithiumCodec.
Require Import Lia.
From Coq Require Sorted.
Import ListNotations.

(** ** polynomials *)
Definition inr (lo hi : Z) (a : list Z) : Prop := Forall (fun c => lo <= c <= hi) a.
Lemma enc_poly : forall d n pb m pk, (0 < d)%nat -> (0 < n)%nat -> (d * n = 8 * pb)%nat -> (n * m = 256)%nat ->
  (forall t, length t = n -> Forall (fun x => 0 <= x < 2 ^ Z.of_nat d) t -> pk t = encG d pb t) ->
  forall F, length F = 256%nat -> Forall (fun x => 0 <= x < 2 ^ Z.of_nat d) F -> flat_map pk (full_chunks n F) = ByteEncode d F.
Proof.
  intros d n pb m pk Hd Hn E Em H F L HF. rewrite (enc_chunks d n pb pk Hd Hn E H m F) by (auto; lia). rewrite ByteEncode_encG. f_equal. nia.
Qed.
Lemma dec_poly : forall d n pb m up, (0 < d)%nat -> (0 < pb)%nat -> (d * n = 8 * pb)%nat -> (n * m = 256)%nat ->
  (forall t, length t = pb -> bytes t -> up t = decG d n t) ->
  forall F, length F = (32 * d)%nat -> bytes F -> flat_map up (full_chunks pb F) = ByteDecode d F.
Proof.
  intros d n pb m up Hd Hn E Em H F L HF. rewrite ByteDecode_decG.
  rewrite <- (map_id (flat_map up _)), <- (map_id (decG d 256 F)).
  replace 256%nat with (n * m)%nat. apply (dec_chunks d n pb (fun x => x) (fun x => x) up Hn E); auto.
  - intros t Lt Ht. rewrite H; auto.
  - nia.
Qed.
Lemma map_in_ext : forall (f g : Z -> Z) (P : Z -> Prop) l, Forall P l -> (forall x, P x -> f x = g x) -> map f l = map g l.
Proof. intros f g P l H E. apply map_ext_in. intros x Hx. apply E. rewrite Forall_forall in H. auto. Qed.

Theorem t1_pack_ok : forall a, length a = 256%nat -> inr 0 1023 a -> d_polyt1_pack a = SimpleBitPack 10 a.
Proof.
  intros a L H. unfold d_polyt1_pack, SimpleBitPack. apply (enc_poly 10 4 5 64); try lia. apply t1_pk_ok.
  eapply Forall_impl; [|exact H]. cbv beta. intros. change (2 ^ Z.of_nat 10) with 1024. lia.
Qed.
Theorem t1_unpack_ok : forall b, length b = 320%nat -> bytes b -> d_polyt1_unpack b = SimpleBitUnpack 10 b.
Proof. intros b L H. apply (dec_poly 10 4 5 64); try lia; auto. apply t1_up_ok. Qed.
Lemma inr_sub : forall (u : Z -> Z) d b lo a, b - lo < 2 ^ Z.of_nat d -> (forall x, 0 <= x < 2 ^ Z.of_nat d -> u x = x) -> inr lo b a ->
  map (fun c => u (b - c)) a = map (fun c => b - c) a /\ Forall (fun x => 0 <= x < 2 ^ Z.of_nat d) (map (fun c => b - c) a).
Proof.
  intros u d b lo a Hd Hu H. split.
  - apply (map_in_ext _ _ (fun c => lo <= c <= b)); auto. intros x Hx. apply Hu. lia.
  - apply Forall_forall. intros x Hx. apply in_map_iff in Hx. destruct Hx as (c & <- & Hc). unfold inr in H. rewrite Forall_forall in H. specialize (H c Hc). lia.
Qed.
Lemma u8_small : forall d x, (d <= 8)%nat -> 0 <= x < 2 ^ Z.of_nat d -> u8 x = x.
Proof. intros d x Hd H. unfold u8. apply Z.mod_small. assert (2 ^ Z.of_nat d <= 2 ^ 8) by (apply Z.pow_le_mono_r; lia). change (2 ^ 8) with 256 in *. lia. Qed.
Lemma u32_small : forall d x, (d <= 32)%nat -> 0 <= x < 2 ^ Z.of_nat d -> u32 x = x.
Proof. intros d x Hd H. unfold u32. apply Z.mod_small. assert (2 ^ Z.of_nat d <= 2 ^ 32) by (apply Z.pow_le_mono_r; lia). change (2 ^ 32) with 4294967296 in *. lia. Qed.

Definition eta_bits (eta : Z) : nat := if eta =? 2 then 3 else 4.
Theorem eta_pack_ok : forall eta a, In eta [2; 4] -> length a = 256%nat -> inr (- eta) eta a -> d_polyeta_pack eta a = BitPack (eta_bits eta) eta a.
Proof.
  intros eta a He L H. unfold d_polyeta_pack, BitPack. cbv zeta.
  destruct He as [<-|[<-|[]]].
  - destruct (inr_sub u8 3 2 (-2) a ltac:(reflexivity) (fun x => u8_small 3 x ltac:(lia)) H) as [-> F]. change (2 =? 2) with true. cbv iota.
    apply (enc_poly 3 8 3 32); try lia. apply eta2_pk_ok. rewrite map_length; exact L. exact F.
  - destruct (inr_sub u8 4 4 (-4) a ltac:(reflexivity) (fun x => u8_small 4 x ltac:(lia)) H) as [-> F]. change (4 =? 2) with false. cbv iota.
    apply (enc_poly 4 2 1 128); try lia. apply eta4_pk_ok. rewrite map_length; exact L. exact F.
Qed.
Theorem eta_unpack_ok : forall eta b, In eta [2; 4] -> length b = (32 * eta_bits eta)%nat -> bytes b -> d_polyeta_unpack eta b = BitUnpack (eta_bits eta) eta b.
Proof.
  intros eta b He L H. unfold d_polyeta_unpack, BitUnpack. apply f_equal. destruct He as [<-|[<-|[]]].
  - apply (dec_poly 3 8 3 32); try lia; auto. apply eta2_up_ok.
  - apply (dec_poly 4 2 1 128); try lia; auto. apply eta4_up_ok.
Qed.
Theorem t0_pack_ok : forall a, length a = 256%nat -> inr (-4095) 4096 a -> d_polyt0_pack a = BitPack 13 (2 ^ 12) a.
Proof.
  intros a L H. unfold d_polyt0_pack, BitPack. change (2 ^ 12) with 4096.
  destruct (inr_sub u32 13 4096 (-4095) a ltac:(reflexivity) (fun x => u32_small 13 x ltac:(lia)) H) as [-> F].
  apply (enc_poly 13 8 13 32); try lia. apply t0_pk_ok. rewrite map_length; exact L. exact F.
Qed.
Theorem t0_unpack_ok : forall b, length b = 416%nat -> bytes b -> d_polyt0_unpack b = BitUnpack 13 (2 ^ 12) b.
Proof. intros b L H. unfold d_polyt0_unpack, BitUnpack. apply f_equal. apply (dec_poly 13 8 13 32); try lia; auto. apply t0_up_ok. Qed.
Definition z_bits (g1 : Z) : nat := if g1 =? 2 ^ 17 then 18 else 20.
Theorem z_pack_ok : forall g1 a, In g1 [2 ^ 17; 2 ^ 19] -> length a = 256%nat -> inr (- g1 + 1) g1 a -> d_polyz_pack g1 a = BitPack (z_bits g1) g1 a.
Proof.
  intros g1 a He L H. unfold d_polyz_pack, BitPack. cbv zeta. destruct He as [<-|[<-|[]]].
  - destruct (inr_sub u32 18 (2 ^ 17) (- 2 ^ 17 + 1) a ltac:(reflexivity) (fun x => u32_small 18 x ltac:(lia)) H) as [-> F].
    apply (enc_poly 18 4 9 64); try lia. apply z17_pk_ok. rewrite map_length; exact L. exact F.
  - destruct (inr_sub u32 20 (2 ^ 19) (- 2 ^ 19 + 1) a ltac:(reflexivity) (fun x => u32_small 20 x ltac:(lia)) H) as [-> F].
    apply (enc_poly 20 2 5 128); try lia. apply z19_pk_ok. rewrite map_length; exact L. exact F.
Qed.
Theorem z_unpack_ok : forall g1 b, In g1 [2 ^ 17; 2 ^ 19] -> length b = (32 * z_bits g1)%nat -> bytes b -> d_polyz_unpack g1 b = BitUnpack (z_bits g1) g1 b.
Proof.
  intros g1 b He L H. unfold d_polyz_unpack, BitUnpack. apply f_equal. destruct He as [<-|[<-|[]]].
  - apply (dec_poly 18 4 9 64); try lia; auto. apply z17_up_ok.
  - apply (dec_poly 20 2 5 128); try lia; auto. apply z19_up_ok.
Qed.
Definition w1_bits (g2 : Z) : nat := if g2 =? 95232 then 6 else 4.
Theorem w1_pack_ok : forall g2 a, In g2 [95232; 261888] -> length a = 256%nat -> inr 0 ((8380417 - 1) / (2 * g2) - 1) a -> d_polyw1_pack g2 a = SimpleBitPack (w1_bits g2) a.
Proof.
  intros g2 a He L H. unfold d_polyw1_pack, SimpleBitPack. destruct He as [<-|[<-|[]]].
  - apply (enc_poly 6 4 3 64); try lia. apply w88_pk_ok. eapply Forall_impl; [|exact H]. cbv beta. intros c Hc.
    change ((8380417 - 1) / (2 * 95232) - 1) with 43 in Hc. change (2 ^ Z.of_nat 6) with 64. lia.
  - apply (enc_poly 4 2 1 128); try lia. apply w32_pk_ok. eapply Forall_impl; [|exact H]. cbv beta. intros c Hc.
    change ((8380417 - 1) / (2 * 261888) - 1) with 15 in Hc. change (2 ^ Z.of_nat 4) with 16. lia.
Qed.

(** ** the hint *)
Definition binary (p : list Z) : Prop := length p = 256%nat /\ Forall (fun c => c = 0 \/ c = 1) p.
Definition ind_from (s h : list Z) : list Z := fold_left (fun h x => upd h (Z.to_nat x) 1) s h.
Definition ind (s : list Z) : list Z := ind_from s (zeros 256).
Fixpoint ones_from (j : nat) (cs : list Z) : list Z :=
  match cs with
  | [] => []
  | c :: cs' => (if c =? 0 then [] else [Z.of_nat j]) ++ ones_from (S j) cs'
  end.
Lemma ones_from_filter : forall cs j, ones_from j cs = map Z.of_nat (filter (fun i => negb (nth (i - j) cs 0 =? 0)) (seq j (length cs))).
Proof.
  induction cs; intros; [reflexivity|]. cbn [ones_from length seq filter]. rewrite Nat.sub_diag. change (nth 0 (a :: cs) 0) with a.
  rewrite IHcs. rewrite (filter_ext_in (fun i => negb (nth (i - j) (a :: cs) 0 =? 0)) (fun i => negb (nth (i - S j) cs 0 =? 0)) (seq (S j) (length cs))).
  - destruct (a =? 0); reflexivity.
  - intros i Hi. apply in_seq in Hi. replace (i - j)%nat with (S (i - S j)) by lia. reflexivity.
Qed.
Lemma ones_at_from : forall p, length p = 256%nat -> ones_at p = ones_from 0 p.
Proof.
  intros p L. rewrite ones_from_filter, L. unfold ones_at. apply (f_equal (map Z.of_nat)). apply filter_ext_in. intros i _. rewrite Nat.sub_0_r. reflexivity.
Qed.
Lemma in_ones_at : forall p x, In x (ones_at p) <-> 0 <= x < 256 /\ nth (Z.to_nat x) p 0 <> 0.
Proof.
  intros p x. unfold ones_at. rewrite in_map_iff. split.
  - intros (j & <- & H). apply filter_In in H. destruct H as [H N]. apply in_seq in H. rewrite Nat2Z.id. split; [lia|].
    apply Bool.negb_true_iff, Z.eqb_neq in N. exact N.
  - intros [R N]. exists (Z.to_nat x). split; [lia|]. apply filter_In. split. apply in_seq. lia.
    apply Bool.negb_true_iff, Z.eqb_neq. exact N.
Qed.
Lemma filter_sorted : forall (f : nat -> bool) n j, Sorted.StronglySorted Z.lt (map Z.of_nat (filter f (seq j n))).
Proof.
  induction n; intros; cbn [seq filter]; [constructor|]. destruct (f j); [|apply IHn]. cbn [map]. constructor; [apply IHn|].
  apply Forall_forall. intros x Hx. apply in_map_iff in Hx. destruct Hx as (i & <- & Hi). apply filter_In in Hi. destruct Hi as [Hi _]. apply in_seq in Hi. lia.
Qed.
Lemma ones_at_sorted : forall p, Sorted.StronglySorted Z.lt (ones_at p).
Proof. intro. apply filter_sorted. Qed.
Lemma ones_at_bytes : forall p, bytes (ones_at p).
Proof. intro p. apply Forall_forall. intros x Hx. apply in_ones_at in Hx. unfold byte. lia. Qed.
Lemma sorted_eq : forall a b, Sorted.StronglySorted Z.lt a -> Sorted.StronglySorted Z.lt b -> (forall x, In x a <-> In x b) -> a = b.
Proof.
  induction a as [|x a IH]; intros b Ha Hb E.
  - destruct b as [|y b]; auto. destruct (proj2 (E y)). left; auto.
  - destruct b as [|y b]. destruct (proj1 (E x)). left; auto.
    apply Sorted.StronglySorted_inv in Ha. apply Sorted.StronglySorted_inv in Hb. destruct Ha as [Ha Fa], Hb as [Hb Fb].
    rewrite Forall_forall in Fa, Fb.
    assert (x = y).
    { destruct (proj1 (E x) (or_introl eq_refl)) as [|I1]; auto. destruct (proj2 (E y) (or_introl eq_refl)) as [|I2]; auto.
      specialize (Fa y I2). specialize (Fb x I1). lia. }
    subst y. f_equal. apply IH; auto. intro z. split; intro I.
    + destruct (proj1 (E z) (or_intror I)) as [<-|]; auto. specialize (Fa x I). lia.
    + destruct (proj2 (E z) (or_intror I)) as [<-|]; auto. specialize (Fb x I). lia.
Qed.
Lemma ind_from_len : forall s h, length (ind_from s h) = length h.
Proof. induction s; intros; cbn; auto. unfold ind_from in IHs. rewrite IHs. apply length_upd. Qed.
Lemma nth_upd : forall (l : list Z) i j v, (i < length l)%nat -> nth j (upd l i v) 0 = if (j =? i)%nat then v else nth j l 0.
Proof.
  induction l; intros i j v H; [cbn in H; lia|]. destruct i, j; cbn; auto. rewrite IHl by (cbn in H; lia). reflexivity.
Qed.
Lemma nth_ind_from : forall s h j, length h = 256%nat -> bytes s ->
  nth j (ind_from s h) 0 = if existsb (Z.eqb (Z.of_nat j)) s then 1 else nth j h 0.
Proof.
  induction s; intros h j L B; [reflexivity|]. cbn [ind_from fold_left existsb]. fold (ind_from s (upd h (Z.to_nat a) 1)).
  pose proof (Forall_inv B) as Ba. apply Forall_inv_tail in B. unfold byte in Ba.
  rewrite IHs by (auto; rewrite length_upd; auto). rewrite nth_upd by lia.
  destruct (existsb _ s); [rewrite Bool.orb_true_r; auto|]. rewrite Bool.orb_false_r.
  destruct (Nat.eqb_spec j (Z.to_nat a)), (Z.eqb_spec (Z.of_nat j) a); try lia; reflexivity.
Qed.
Lemma existsb_In : forall j s, existsb (Z.eqb j) s = true <-> In j s.
Proof.
  intros. rewrite existsb_exists. split. intros (x & I & E). apply Z.eqb_eq in E. subst; auto. intro. exists j. split; auto. apply Z.eqb_refl.
Qed.
Lemma ind_binary : forall s, bytes s -> binary (ind s).
Proof.
  intros s B. split. unfold ind. rewrite ind_from_len. apply length_zeros.
  apply Forall_forall. intros x Hx. apply (In_nth _ _ 0) in Hx. destruct Hx as (j & _ & <-).
  unfold ind. rewrite nth_ind_from by (auto; apply length_zeros). destruct (existsb _ _); auto. rewrite nth_zeros. auto.
Qed.
Lemma ones_at_ind : forall s, bytes s -> Sorted.StronglySorted Z.lt s -> ones_at (ind s) = s.
Proof.
  intros s B Hs. apply sorted_eq; auto. apply ones_at_sorted. intro x. rewrite in_ones_at. unfold ind.
  split.
  - intros [R N]. rewrite nth_ind_from, nth_zeros in N by (auto; apply length_zeros). rewrite Z2Nat.id in N by lia.
    destruct (existsb (Z.eqb x) s) eqn:E. apply existsb_In in E; auto. lia.
  - intro I. assert (byte x) by (unfold bytes in B; rewrite Forall_forall in B; auto). split; [exact H|].
    rewrite nth_ind_from by (auto; apply length_zeros). rewrite Z2Nat.id by (unfold byte in H; lia).
    rewrite (proj2 (existsb_In x s) I). lia.
Qed.
Opaque ones_at.
Lemma ind_ones_at : forall p, binary p -> ind (ones_at p) = p.
Proof.
  intros p [L B]. apply (nth_ext _ _ 0 0).
  - unfold ind. rewrite ind_from_len, length_zeros. auto.
  - intros j Hj. unfold ind in *. rewrite ind_from_len, length_zeros in Hj. rewrite nth_ind_from by (apply length_zeros || apply ones_at_bytes).
    rewrite nth_zeros. destruct (existsb _ _) eqn:E.
    + apply existsb_In, in_ones_at in E. rewrite Nat2Z.id in E. destruct E as [_ N]. rewrite Forall_forall in B.
      destruct (B (nth j p 0) ltac:(apply nth_In; lia)); congruence.
    + rewrite Forall_forall in B. destruct (B (nth j p 0) ltac:(apply nth_In; lia)) as [|N]; auto.
      assert (In (Z.of_nat j) (ones_at p)). { apply in_ones_at. rewrite Nat2Z.id. lia. }
      apply existsb_In in H. congruence.
Qed.

(** the reader *)
Fixpoint ascending (prev : option Z) (s : list Z) : bool :=
  match s with
  | [] => true
  | x :: s' => match prev with None => true | Some y => y <? x end && ascending (Some x) s'
  end.
Lemma asc_some : forall s y, ascending (Some y) s = true <-> Sorted.StronglySorted Z.lt (y :: s).
Proof.
  induction s as [|x s IH]; intro y; cbn [ascending].
  - split; auto. intro. repeat constructor.
  - rewrite Bool.andb_true_iff, IH, Z.ltb_lt. split.
    + intros [H S]. constructor; auto. constructor; auto. apply Sorted.StronglySorted_inv in S. destruct S as [_ F].
      eapply Forall_impl; [|exact F]. intros; lia.
    + intro S. apply Sorted.StronglySorted_inv in S. destruct S as [S F]. split; auto. apply Forall_inv in F. auto.
Qed.
Lemma asc_none : forall s, ascending None s = true <-> Sorted.StronglySorted Z.lt s.
Proof. destruct s; cbn [ascending]. split; auto. constructor. cbn. apply asc_some. Qed.
Lemma slice_S : forall (b : list Z) j n, (j < length b)%nat -> slice b j (S n) = nth j b 0 :: slice b (S j) n.
Proof.
  intros b j n H. unfold slice. revert b H. induction j; intros [|x b] H; cbn in H; try lia; [reflexivity|]. cbn [skipn nth]. rewrite IHj by lia. reflexivity.
Qed.
Lemma uh_coeffs_ok : forall cnt j k b h, (k <= j)%nat -> (j + cnt <= length b)%nat ->
  uh_coeffs cnt j k b h = if ascending (if (k <? j)%nat then Some (nth (j - 1) b 0) else None) (slice b j cnt)
    then Some (ind_from (slice b j cnt) h) else None.
Proof.
  induction cnt; intros j k b h Hk Hj.
  - unfold slice. cbn. reflexivity.
  - rewrite slice_S by lia. cbn [uh_coeffs ascending]. rewrite IHcnt by lia.
    replace (k <? S j)%nat with true by (symmetry; apply Nat.ltb_lt; lia). replace (S j - 1)%nat with j by lia.
    destruct (k <? j)%nat; cbn [andb].
    + rewrite Z.ltb_antisym. destruct (_ <=? _); reflexivity.
    + reflexivity.
Qed.
Lemma slice_app2 : forall (b : list Z) k e e', (k <= e)%nat -> (e <= e')%nat -> slice b k (e' - k) = slice b k (e - k) ++ slice b e (e' - e).
Proof.
  intros b k e e' H1 H2. unfold slice. rewrite <- (firstn_skipn (e - k) (skipn k b)) at 1.
  rewrite skipn_skipn'. replace (k + (e - k))%nat with e by lia.
  rewrite firstn_app, firstn_firstn. replace (Nat.min (e' - k) (e - k)) with (e - k)%nat by lia. f_equal.
  destruct (Nat.le_gt_cases (e - k) (length (skipn k b))).
  - rewrite firstn_length_le by auto. f_equal. lia.
  - rewrite skipn_length in H. assert (skipn e b = []) by (apply skipn_all2; lia). rewrite H0, !firstn_nil. reflexivity.
Qed.
Definition counts (ps : list (list Z)) (k : nat) (j : nat) : Z := Z.of_nat (k + length (positions (firstn (S j) ps))).
Lemma counts_S : forall p qs k j, counts (p :: qs) k (S j) = counts qs (k + length (ones_at p)) j.
Proof.
  intros. unfold counts. change (firstn (S (S j)) (p :: qs)) with (p :: firstn (S j) qs). unfold positions at 1. cbn [flat_map].
  rewrite app_length. fold (positions (firstn (S j) qs)). lia.
Qed.
Lemma counts_0 : forall p qs k, counts (p :: qs) k 0 = Z.of_nat (k + length (ones_at p)).
Proof. intros. unfold counts. cbn [firstn]. unfold positions. cbn [flat_map]. rewrite app_nil_r. reflexivity. Qed.
Lemma uh_polys_ok : forall omega b cnt i k ps k', bytes b -> (omega + i + cnt <= length b)%nat -> (k <= omega)%nat ->
  (uh_polys omega cnt i k b = Some (ps, k') <->
   length ps = cnt /\ Forall binary ps /\ k' = (k + length (positions ps))%nat /\ (k' <= omega)%nat /\
   slice b k (k' - k) = positions ps /\ (forall j, (j < cnt)%nat -> nth (omega + i + j) b 0 = counts ps k j)).
Proof.
  intros omega b. induction cnt; intros i k ps k' B L K.
  - cbn [uh_polys]. split.
    + intro E. assert (ps = [] /\ k' = k) as [-> ->] by (split; congruence). cbn. rewrite Nat.sub_diag. repeat split; auto; try lia.
    + intros (E & _ & E2 & _). destruct ps; [|discriminate]. cbn in E2. rewrite Nat.add_0_r in E2. subst; auto.
  - assert (Be : 0 <= nth (omega + i) b 0).
    { unfold bytes in B. rewrite Forall_forall in B. assert (byte (nth (omega + i) b 0)) by (apply B, nth_In; lia). unfold byte in H; lia. }
    cbn [uh_polys]. remember (Z.to_nat (nth (omega + i) b 0)) as e eqn:Ee. split.
    + destruct (e <? k)%nat eqn:E1; [discriminate|]. destruct (omega <? e)%nat eqn:E2; [discriminate|]. cbn [orb].
      apply Nat.ltb_ge in E1, E2. rewrite uh_coeffs_ok by lia. rewrite Nat.ltb_irrefl.
      destruct (ascending None _) eqn:A; [|discriminate]. apply asc_none in A.
      destruct (uh_polys omega cnt (S i) e b) as [[qs k2]|] eqn:R; [|discriminate]. intro E.
      assert (Eq : ps = ind (slice b k (e - k)) :: qs) by (unfold ind; congruence). assert (Ek : k2 = k') by congruence. clear E. subst ps k2.
      apply IHcnt in R; try lia; auto. destruct R as (R1 & R2 & R3 & R4 & R5 & R6).
      assert (Bs : bytes (slice b k (e - k))) by (apply bytes_slice; auto).
      assert (Eo : ones_at (ind (slice b k (e - k))) = slice b k (e - k)) by (apply ones_at_ind; auto).
      assert (Ls : length (slice b k (e - k)) = (e - k)%nat) by (apply length_slice; lia).
      assert (P : forall qs, positions (ind (slice b k (e - k)) :: qs) = slice b k (e - k) ++ positions qs) by (intro; unfold positions; cbn [flat_map]; rewrite Eo; auto).
      split; [cbn; lia|]. split; [constructor; auto; apply ind_binary; auto|]. rewrite P, app_length, Ls.
      split; [lia|]. split; [lia|]. split.
      * rewrite (slice_app2 b k e k') by lia. rewrite R5. reflexivity.
      * intros [|j] Hj.
        { rewrite counts_0, Eo, Ls, Nat.add_0_r. lia. }
        { replace (omega + i + S j)%nat with (omega + S i + j)%nat by lia. rewrite R6 by lia. rewrite counts_S, Eo, Ls. f_equal. lia. }
    + intros (R1 & R2 & R3 & R4 & R5 & R6). destruct ps as [|p qs]; [discriminate|].
      assert (P : forall qs, positions (p :: qs) = ones_at p ++ positions qs) by reflexivity.
      assert (Ee' : e = (k + length (ones_at p))%nat).
      { subst e. replace (omega + i)%nat with (omega + i + 0)%nat by lia. rewrite R6 by lia. rewrite counts_0. lia. }
      rewrite P, app_length in R3. rewrite P in R5. rewrite (slice_app2 b k e k') in R5 by lia.
      assert (Ls : length (slice b k (e - k)) = (e - k)%nat) by (apply length_slice; lia).
      apply app_inj_1 in R5; [|lia]. destruct R5 as [R5 R5'].
      replace (e <? k)%nat with false by (symmetry; apply Nat.ltb_ge; lia).
      replace (omega <? e)%nat with false by (symmetry; apply Nat.ltb_ge; lia). cbn [orb].
      rewrite uh_coeffs_ok by lia. rewrite Nat.ltb_irrefl, R5.
      rewrite (proj2 (asc_none _) (ones_at_sorted p)). fold (ind (ones_at p)). rewrite ind_ones_at by exact (Forall_inv R2).
      rewrite (proj2 (IHcnt (S i) e qs k' B ltac:(lia) ltac:(lia))); auto.
      split; [cbn in R1; lia|]. split; [exact (Forall_inv_tail R2)|]. split; [lia|]. split; [lia|]. split; [exact R5'|].
      intros j Hj. replace (omega + S i + j)%nat with (omega + i + S j)%nat by lia. rewrite R6 by lia. rewrite counts_S. f_equal. lia.
Qed.
Lemma binary_iff : forall h, Forall binary h <-> Forall (fun p => length p = 256%nat /\ Forall (fun c => c = 0 \/ c = 1) p) h.
Proof. reflexivity. Qed.
Lemma zeros_iff : forall (b : list Z), forallb (fun j => nth j b 0 =? 0) (seq 0 (length b)) = true <-> b = zeros (length b).
Proof.
  intros. rewrite forallb_forall. split.
  - intro H. apply (nth_ext _ _ 0 0). rewrite length_zeros; auto. intros j Hj. rewrite nth_zeros. apply Z.eqb_eq, H, in_seq. lia.
  - intros E j _. rewrite E, nth_zeros. reflexivity.
Qed.
Lemma forallb_slice : forall (b : list Z) k n, (k + n <= length b)%nat ->
  (forallb (fun j => nth j b 0 =? 0) (seq k n) = true <-> slice b k n = zeros n).
Proof.
  intros b k n H. assert (L : length (slice b k n) = n) by (apply length_slice; auto). rewrite <- L at 3. rewrite <- zeros_iff, L.
  rewrite !forallb_forall. split; intros A j Hj; apply in_seq in Hj.
  - unfold slice. rewrite firstn_nth0, skipn_nth0 by lia. apply A, in_seq. lia.
  - assert (X := A (j - k)%nat ltac:(apply in_seq; lia)). unfold slice in X. rewrite firstn_nth0, skipn_nth0 in X by lia.
    replace (k + (j - k))%nat with j in X by lia. exact X.
Qed.
Theorem unpack_hb_ok : forall P b h, bytes b -> length b = (d_omega P + d_k P)%nat ->
  (d_unpack_hb P b = Some h <-> hint_vector (d_k P) (d_omega P) h /\ b = HintBitPack (d_omega P) h).
Proof.
  intros P b h B L. set (om := d_omega P) in *. set (K := d_k P) in *.
  assert (Lc : forall h, length h = K -> length (map (fun i => Z.of_nat (length (positions (firstn (S i) h)))) (seq 0 (length h))) = K) by (intros; rewrite map_length, seq_length; auto).
  unfold d_unpack_hb. fold om K. split.
  - destruct (uh_polys om K 0 0 b) as [[hs k]|] eqn:R; [|discriminate].
    apply uh_polys_ok in R; auto; try lia. destruct R as (R1 & R2 & R3 & R4 & R5 & R6).
    destruct (forallb _ _) eqn:F; [|discriminate]. intro E. assert (hs = h) by congruence. subst hs. clear E.
    apply forallb_slice in F; [|lia]. split. split; auto. split; auto. lia.
    unfold HintBitPack. cbn [Nat.add] in R3. rewrite <- R3, <- R5, <- F. rewrite !Nat.sub_0_r.
    rewrite app_assoc. replace (slice b 0 k ++ slice b k (om - k)) with (firstn om b).
    2:{ pose proof (slice_app2 b 0 k om ltac:(lia) ltac:(lia)) as X. rewrite !Nat.sub_0_r in X. rewrite <- X. reflexivity. }
    rewrite <- (firstn_skipn om b) at 1. f_equal. apply (nth_ext _ _ 0 0). rewrite Lc, skipn_length; auto; lia.
    intros j Hj. rewrite skipn_length in Hj. rewrite skipn_nth0. replace (om + j)%nat with (om + 0 + j)%nat by lia. rewrite R6 by lia.
    rewrite R1, nth_map_seqA by lia. unfold counts. reflexivity.
  - intros [(H1 & H2 & H3) E]. assert (Lz : length (positions h ++ zeros (om - length (positions h))) = om) by (rewrite app_length, length_zeros; lia).
    assert (R : uh_polys om K 0 0 b = Some (h, length (positions h))).
    { apply uh_polys_ok; auto; try lia. split; auto. split; auto. split; auto. split; auto. split.
      - rewrite Nat.sub_0_r. unfold slice. cbn [skipn]. rewrite E. unfold HintBitPack. apply firstn_length_app.
      - intros j Hj. rewrite Nat.add_0_r, E. unfold HintBitPack. rewrite app_assoc, app_nth2 by lia. rewrite Lz.
        replace (om + j - om)%nat with j by lia. rewrite H1, nth_map_seqA by lia. reflexivity. }
    rewrite R. rewrite (proj2 (forallb_slice b (length (positions h)) (om - length (positions h)) ltac:(lia))); auto.
    rewrite E. unfold HintBitPack, slice. rewrite skipn_length_app.
    rewrite <- (length_zeros (om - length (positions h))) at 1. apply firstn_length_app.
Qed.

(** the writer *)
Lemma upd_app : forall (a : list Z) x y b, upd (a ++ x :: b) (length a) y = a ++ y :: b.
Proof. induction a; intros; cbn; auto. rewrite IHa. reflexivity. Qed.
Lemma ph_coeffs_ok : forall cs j pos m R, (j + length cs <= 256)%nat -> (length (ones_from j cs) <= m)%nat ->
  ph_coeffs cs j (length pos) (pos ++ zeros m ++ R) =
    (length (pos ++ ones_from j cs), (pos ++ ones_from j cs) ++ zeros (m - length (ones_from j cs)) ++ R).
Proof.
  induction cs as [|c cs IH]; intros j pos m R Hj Hm; cbn [ph_coeffs ones_from] in *.
  - rewrite app_nil_r. cbn. rewrite Nat.sub_0_r. reflexivity.
  - cbn [length] in Hj. destruct (c =? 0); cbn [app length] in *.
    + apply IH; lia.
    + destruct m as [|m]; [lia|]. change (zeros (S m)) with (0 :: zeros m). cbn [app]. rewrite upd_app.
      assert (u8 (Z.of_nat j) = Z.of_nat j) by (apply Z.mod_small; lia). rewrite H.
      replace (S (length pos)) with (length (pos ++ [Z.of_nat j])) by (rewrite app_length; cbn; lia).
      change (pos ++ Z.of_nat j :: zeros m ++ R) with (pos ++ [Z.of_nat j] ++ (zeros m ++ R)). rewrite (app_assoc pos [Z.of_nat j]).
      rewrite IH by lia. rewrite <- !app_assoc. reflexivity.
Qed.
Lemma positions_from : forall p qs, length p = 256%nat -> positions (p :: qs) = ones_from 0 p ++ positions qs.
Proof. intros p qs L. unfold positions. cbn [flat_map]. rewrite ones_at_from by auto. reflexivity. Qed.
Lemma ph_polys_ok : forall omega qs pos m cn i, Forall (fun p => length p = 256%nat) qs -> (length pos + m = omega)%nat -> (omega <= 255)%nat ->
  length cn = i -> (length (positions qs) <= m)%nat ->
  ph_polys omega qs i (length pos) (pos ++ zeros m ++ cn ++ zeros (length qs)) =
    (pos ++ positions qs) ++ zeros (m - length (positions qs)) ++ cn ++ map (counts qs (length pos)) (seq 0 (length qs)).
Proof.
  intros omega. induction qs as [|p qs IH]; intros pos m cn i F Hm Ho Hc Hp; cbn [ph_polys].
  - change (zeros (length (@nil (list Z)))) with (@nil Z). cbn [length seq map positions flat_map]. rewrite !app_nil_r, Nat.sub_0_r. reflexivity.
  - pose proof (Forall_inv F) as Lp. cbv beta in Lp. apply Forall_inv_tail in F. rewrite positions_from in Hp by auto. rewrite app_length in Hp.
    rewrite ph_coeffs_ok by lia. set (o := ones_from 0 p) in *.
    assert (U : u8 (Z.of_nat (length (pos ++ o))) = Z.of_nat (length (pos ++ o))) by (apply Z.mod_small; rewrite app_length; lia). rewrite U.
    change (zeros (length (p :: qs))) with (0 :: zeros (length qs)).
    replace (upd ((pos ++ o) ++ zeros (m - length o) ++ cn ++ 0 :: zeros (length qs)) (omega + i) (Z.of_nat (length (pos ++ o))))
      with ((pos ++ o) ++ zeros (m - length o) ++ (cn ++ [Z.of_nat (length (pos ++ o))]) ++ zeros (length qs)).
    2:{ replace (omega + i)%nat with (length ((pos ++ o) ++ zeros (m - length o) ++ cn)) by (rewrite !app_length, length_zeros; lia).
        rewrite (app_assoc (zeros _) cn), (app_assoc (pos ++ o) (zeros _ ++ cn)). rewrite upd_app. rewrite <- !app_assoc. reflexivity. }
    rewrite IH; auto; try (rewrite ?app_length; cbn [length]; lia).
    rewrite positions_from by auto. fold o. rewrite !app_length. rewrite <- !app_assoc. rewrite Nat.sub_add_distr. do 5 apply f_equal. cbn [app length seq map]. apply f_equal2.
    + rewrite counts_0, ones_at_from by auto. fold o. lia.
    + rewrite <- seq_shift, map_map. apply map_ext. intro j. rewrite counts_S, ones_at_from by auto. fold o. reflexivity.
Qed.
Theorem pack_h_ok : forall P h, (d_omega P <= 255)%nat -> hint_vector (d_k P) (d_omega P) h -> d_pack_h P h = HintBitPack (d_omega P) h.
Proof.
  intros P h Ho (H1 & H2 & H3). unfold d_pack_h, HintBitPack. rewrite <- H1.
  pose proof (ph_polys_ok (d_omega P) h [] (d_omega P) [] 0) as X. cbn [length app] in X.
  unfold zeros in *. rewrite repeat_app, X; auto. 
  eapply Forall_impl; [|exact H2]. cbv beta. tauto.
Qed.

(** ** signatures *)
Lemma cut_flat : forall (f : list Z -> list Z) n l r, Forall (fun x => length (f x) = n) l -> cut (length l) n (flat_map f l ++ r) = map f l.
Proof.
  intros f n. induction l; intros r F; [reflexivity|]. cbn [length cut flat_map map]. pose proof (Forall_inv F) as La. cbv beta in La. apply Forall_inv_tail in F.
  rewrite <- app_assoc. apply f_equal2.
  - rewrite <- La. apply firstn_length_app.
  - rewrite <- La, skipn_length_app. rewrite La. apply IHl. exact F.
Qed.
Lemma length_flat : forall (f : list Z -> list Z) n l, Forall (fun x => length (f x) = n) l -> length (flat_map f l) = (length l * n)%nat.
Proof.
  intros f n. induction l; intros F; [reflexivity|]. cbn [flat_map length]. rewrite app_length. pose proof (Forall_inv F) as La. cbv beta in La. apply Forall_inv_tail in F.
  rewrite La, IHl by auto. lia.
Qed.
Lemma length_cut : forall k n (a : list Z), length (cut k n a) = k.
Proof. induction k; intros; cbn [cut length]; auto. Qed.
Lemma cut_parts : forall k n (a : list Z), (k * n <= length a)%nat -> bytes a -> Forall (fun x => length x = n /\ bytes x) (cut k n a).
Proof.
  induction k; intros n a L B; cbn [cut]; constructor.
  - split. apply firstn_length_le. cbn in L; lia. apply Forall_forall. intros x Hx. unfold bytes in B. rewrite Forall_forall in B. apply B.
    rewrite <- (firstn_skipn n a). apply in_or_app. auto.
  - apply IHk. rewrite skipn_length. cbn in L. lia. unfold bytes in *. rewrite <- (firstn_skipn n a) in B. apply Forall_app in B. tauto.
Qed.
Lemma cut_concat : forall k n (a : list Z), (k * n <= length a)%nat -> concat (cut k n a) = firstn (k * n) a.
Proof.
  induction k; intros n a L; cbn [cut concat]; [reflexivity|]. cbn [Nat.mul] in *. rewrite IHk by (rewrite skipn_length; lia).
  rewrite <- (firstn_skipn n a) at 3. rewrite firstn_app, firstn_firstn. rewrite firstn_length_le by lia.
  replace (Nat.min (n + k * n) n) with n by lia. replace (n + k * n - n)%nat with (k * n)%nat by lia. reflexivity.
Qed.
Lemma flat_map_map : forall (f : list Z -> list Z) (g : list Z -> list Z) l, flat_map f (map g l) = flat_map (fun x => f (g x)) l.
Proof. intros. rewrite !flat_map_concat_map, map_map. reflexivity. Qed.
Lemma flat_map_id : forall (f : list Z -> list Z) l, Forall (fun x => f x = x) l -> flat_map f l = concat l.
Proof. induction l; intro F; [reflexivity|]. cbn [flat_map concat]. rewrite (Forall_inv F), IHl; auto. exact (Forall_inv_tail F). Qed.

Lemma BitUnpack_Pack : forall n b lo a, (0 < n)%nat -> b - lo < 2 ^ Z.of_nat n -> length a = 256%nat -> inr lo b a -> BitUnpack n b (BitPack n b a) = a.
Proof.
  intros n b lo a Hn Hb L H. unfold BitUnpack, BitPack. destruct (inr_sub (fun x => x) n b lo a Hb (fun _ _ => eq_refl) H) as [_ F].
  rewrite ByteDecode_Encode; auto. 2: rewrite map_length; auto. rewrite map_map. rewrite <- (map_id a) at 2. apply map_ext. intro. lia.
Qed.
Lemma BitPack_Unpack : forall n b v, (0 < n)%nat -> length v = (32 * n)%nat -> bytes v -> BitPack n b (BitUnpack n b v) = v.
Proof.
  intros n b v Hn L B. unfold BitUnpack, BitPack. rewrite map_map.
  replace (map (fun x => b - (b - x)) (ByteDecode n v)) with (ByteDecode n v). apply ByteEncode_Decode; auto.
  rewrite <- (map_id (ByteDecode n v)) at 1. apply map_ext. intro. lia.
Qed.
Lemma BitUnpack_range : forall n b v, inr (b - 2 ^ Z.of_nat n + 1) b (BitUnpack n b v) /\ length (BitUnpack n b v) = 256%nat.
Proof.
  intros. unfold BitUnpack. split; [|rewrite map_length; apply length_ByteDecode]. apply Forall_forall. intros x Hx. apply in_map_iff in Hx. destruct Hx as (y & <- & Hy).
  pose proof (ByteDecode_range n v) as R. rewrite Forall_forall in R. specialize (R y Hy). cbv beta in R. lia.
Qed.
Lemma length_BitPack : forall n b v, length (BitPack n b v) = (32 * n)%nat.
Proof. intros. apply length_ByteEncode. Qed.
Lemma bytes_BitPack : forall n b v, bytes (BitPack n b v).
Proof. intros. apply bytes_ByteEncode. Qed.

Definition dset_in (P : dparam) : Prop := In P [ML_DSA_44; ML_DSA_65; ML_DSA_87].
Lemma dset_g1 : forall P, dset_in P -> In (d_g1 P) [2 ^ 17; 2 ^ 19] /\ z_bytes P = (32 * z_bits (d_g1 P))%nat /\ (0 < z_bits (d_g1 P))%nat /\ 2 ^ Z.of_nat (z_bits (d_g1 P)) = 2 * d_g1 P.
Proof. intros P [<-|[<-|[<-|[]]]]; repeat split; auto; try (left; reflexivity); try (right; left; reflexivity); vm_compute; lia. Qed.
Lemma dset_omega : forall P, dset_in P -> (d_omega P <= 255)%nat.
Proof. intros P [<-|[<-|[<-|[]]]]; vm_compute; lia. Qed.
Definition sig_bytes (P : dparam) : nat := (d_ct P + d_l P * z_bytes P + (d_omega P + d_k P))%nat.
(** what the three parts of a signature decode to *)
Definition d_unpack_sig (P : dparam) (sg : list Z) : option (list Z * list (list Z) * list (list Z)) :=
  match d_unpack_h P sg with Some h => Some (firstn (d_ct P) sg, d_unpack_z P sg, h) | None => None end.
Definition z_range (P : dparam) (z : list (list Z)) : Prop :=
  length z = d_l P /\ Forall (fun p => length p = 256%nat /\ Forall (fun c => - d_g1 P + 1 <= c <= d_g1 P) p) z.
Lemma bytes_zeros' : forall n, bytes (zeros n).
Proof. intro. apply Forall_forall. intros x Hx. unfold zeros in Hx. apply repeat_spec in Hx. subst. unfold byte. lia. Qed.
Lemma hint_len : forall omega k h, hint_vector k omega h -> length (HintBitPack omega h) = (omega + k)%nat.
Proof. intros omega k h (A & B & C). unfold HintBitPack. rewrite !app_length, length_zeros, map_length, seq_length. lia. Qed.
Lemma positions_bytes : forall h, bytes (positions h).
Proof. induction h; unfold positions; cbn [flat_map]. constructor. apply Forall_app. split; auto. apply ones_at_bytes. Qed.
Lemma positions_firstn : forall h i, (length (positions (firstn i h)) <= length (positions h))%nat.
Proof.
  intros. rewrite <- (firstn_skipn i h) at 2. unfold positions. rewrite flat_map_app, app_length. lia.
Qed.
Lemma hint_bytes : forall omega k h, (omega <= 255)%nat -> hint_vector k omega h -> bytes (HintBitPack omega h).
Proof.
  intros omega k h Ho (A & B & C). unfold HintBitPack. apply Forall_app. split. apply positions_bytes. apply Forall_app. split. apply bytes_zeros'.
  apply Forall_forall. intros x Hx. apply in_map_iff in Hx. destruct Hx as (i & <- & _). pose proof (positions_firstn h (S i)). unfold byte. lia.
Qed.
Theorem unpack_sig_iff : forall P sg ct z h, dset_in P -> bytes sg -> length sg = sig_bytes P ->
  (d_unpack_sig P sg = Some (ct, z, h) <->
   bytes ct /\ length ct = d_ct P /\ z_range P z /\ hint_vector (d_k P) (d_omega P) h /\ sg = d_pack_sig P ct z h).
Proof.
  intros P sg ct z h HP B L. destruct (dset_g1 P HP) as (G & Zb & Z0 & Z2). pose proof (dset_omega P HP) as Ho.
  set (n := z_bits (d_g1 P)) in *. unfold sig_bytes in L. unfold d_unpack_sig, d_unpack_h. split.
  - destruct (d_unpack_hb P _) as [h'|] eqn:E; [|discriminate]. intro X.
    assert (E1 : firstn (d_ct P) sg = ct) by congruence. assert (E2 : d_unpack_z P sg = z) by congruence. assert (E3 : h' = h) by congruence. clear X. subst h'.
    apply unpack_hb_ok in E. 2: apply bytes_slice; auto. 2: apply length_slice; lia. destruct E as [HV E].
    assert (Bs : bytes (skipn (d_ct P) sg)) by (unfold bytes in *; rewrite <- (firstn_skipn (d_ct P) sg) in B; apply Forall_app in B; tauto).
    assert (Bc : bytes ct) by (unfold bytes in *; rewrite <- (firstn_skipn (d_ct P) sg) in B; apply Forall_app in B; rewrite <- E1; tauto).
    pose proof (cut_parts (d_l P) (z_bytes P) (skipn (d_ct P) sg) ltac:(rewrite skipn_length; lia) Bs) as CP.
    assert (UZ : d_unpack_z P sg = map (BitUnpack n (d_g1 P)) (cut (d_l P) (z_bytes P) (skipn (d_ct P) sg))).
    { unfold d_unpack_z. apply map_ext_in. intros x Hx. rewrite Forall_forall in CP. destruct (CP x Hx). apply z_unpack_ok; auto. rewrite Zb in H; auto. }
    assert (ZR : Forall (fun p => length p = 256%nat /\ Forall (fun c => - d_g1 P + 1 <= c <= d_g1 P) p) z).
    { rewrite <- E2, UZ. apply Forall_forall. intros p Hp. apply in_map_iff in Hp. destruct Hp as (x & <- & _). destruct (BitUnpack_range n (d_g1 P) x) as [R Lx]. split; auto.
      eapply Forall_impl; [|exact R]. cbv beta. intros. lia. }
    split; [exact Bc|]. split; [rewrite <- E1; apply firstn_length_le; lia|]. split.
    + split; [|exact ZR]. rewrite <- E2. unfold d_unpack_z. rewrite map_length. apply length_cut.
    + split; [exact HV|]. unfold d_pack_sig. rewrite pack_h_ok, <- E, <- E1 by auto.
      rewrite <- (firstn_skipn (d_ct P) sg) at 1. apply f_equal. 
      assert (EZ : flat_map (d_polyz_pack (d_g1 P)) z = firstn (d_l P * z_bytes P) (skipn (d_ct P) sg)).
      { rewrite <- cut_concat by (rewrite skipn_length; lia). rewrite <- E2. unfold d_unpack_z. rewrite flat_map_map. apply flat_map_id.
        eapply Forall_impl; [|exact CP]. cbv beta. intros x [Lx Bx]. rewrite z_unpack_ok by (first [exact G | exact Bx | fold n; rewrite <- Zb; exact Lx]). fold n.
        destruct (BitUnpack_range n (d_g1 P) x) as [R Lu]. rewrite z_pack_ok by (first [exact G | exact Lu | eapply Forall_impl; [|exact R]; cbv beta; intros; lia]). fold n.
        apply BitPack_Unpack; auto. rewrite <- Zb; auto. }
      rewrite EZ. rewrite <- (firstn_skipn (d_l P * z_bytes P) (skipn (d_ct P) sg)) at 1. apply f_equal.
      rewrite skipn_skipn'. unfold slice. symmetry. apply firstn_all2. rewrite skipn_length. lia.
  - intros (Bc & Lc & [Lz FZ] & HV & E).
    assert (PZ : flat_map (d_polyz_pack (d_g1 P)) z = flat_map (BitPack n (d_g1 P)) z).
    { rewrite !flat_map_concat_map. apply f_equal. apply map_ext_in. intros p Hp. rewrite Forall_forall in FZ. destruct (FZ p Hp) as [Lp Rp]. apply z_pack_ok; auto. }
    assert (LZ : length (flat_map (BitPack n (d_g1 P)) z) = (d_l P * z_bytes P)%nat).
    { rewrite (length_flat _ (z_bytes P)). rewrite Lz; auto. apply Forall_forall. intros. rewrite Zb. apply length_BitPack. }
    unfold d_pack_sig in E. rewrite PZ, pack_h_ok in E by auto.
    assert (ES : slice sg (d_ct P + d_l P * z_bytes P) (d_omega P + d_k P) = HintBitPack (d_omega P) h).
    { rewrite E. unfold slice. rewrite app_assoc. replace (d_ct P + d_l P * z_bytes P)%nat with (length (ct ++ flat_map (BitPack n (d_g1 P)) z)) by (rewrite app_length; lia).
      rewrite skipn_length_app. apply firstn_all2. rewrite (hint_len _ (d_k P)); auto. }
    rewrite ES. rewrite (proj2 (unpack_hb_ok P _ h (hint_bytes _ _ _ Ho HV) (hint_len _ _ _ HV)) (conj HV eq_refl)).
    assert (E1 : firstn (d_ct P) sg = ct) by (rewrite E, <- Lc; apply firstn_length_app).
    assert (E2 : d_unpack_z P sg = z).
    { unfold d_unpack_z. replace (skipn (d_ct P) sg) with (flat_map (BitPack n (d_g1 P)) z ++ HintBitPack (d_omega P) h) by (rewrite E, <- Lc; symmetry; apply skipn_length_app).
      rewrite <- Lz. rewrite cut_flat by (apply Forall_forall; intros; rewrite Zb; apply length_BitPack). rewrite map_map.
      rewrite <- (map_id z) at 2. apply map_ext_in. intros p Hp. rewrite Forall_forall in FZ. destruct (FZ p Hp) as [Lp Rp].
      rewrite z_unpack_ok by (auto using bytes_BitPack, length_BitPack). fold n. apply (BitUnpack_Pack n (d_g1 P) (- d_g1 P + 1)); auto. lia. }
    rewrite E1, E2. reflexivity.
Qed.
