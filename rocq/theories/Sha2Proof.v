(** The SHA-2 code computes FIPS 180-4. *)
From Verif Require Import Bytes Words Sha2Spec Sha2Model.

Record matches (c : sha2_cfg) (P : sha2_params) (K : list Z) : Prop := {
  m_w : 0 < sp_w P;
  m_tr : forall x, c_tr c x = x mod 2 ^ sp_w P;
  m_not : forall x, c_not c x = NOT P x;
  m_S0 : forall x, SIG c (c_S0 c) x = rot3 P (sp_S0 P) x;
  m_S1 : forall x, SIG c (c_S1 c) x = rot3 P (sp_S1 P) x;
  m_s0 : forall x, sig c (c_s0 c) x = rot2 P (sp_s0 P) x;
  m_s1 : forall x, sig c (c_s1 c) x = rot2 P (sp_s1 P) x;
  m_K : c_K c = K;
  m_wb : c_wb c = sp_wb P;
  m_nr : c_nr c = sp_nr P;
  m_nr16 : (16 <= sp_nr P)%nat;
  m_lf : c_lf c = sp_lf P }.

Lemma ror32_ROTR : forall x n, 0 < n < 32 -> ror32 x n = ROTR p256 n x.
Proof.
  intros x n Hn. unfold ror32, ROTR. cbn [sp_w p256]. rewrite t32_mod, (Z.mod_small n), (Z.mod_small (32 - n)) by lia. reflexivity.
Qed.
Lemma ror64_ROTR : forall x n, 0 < n < 64 -> ror64 x n = ROTR p512 n x.
Proof.
  intros x n Hn. unfold ror64, ROTR. cbn [sp_w p512]. rewrite t64_mod, (Z.mod_small n), (Z.mod_small (64 - n)) by lia. reflexivity.
Qed.

Lemma K256_ok : K_of p256 = sha256_K. Proof. vm_compute. reflexivity. Qed.
Lemma K512_ok : K_of p512 = sha512_K. Proof. vm_compute. reflexivity. Qed.
Lemma IV256_ok : IV256 = sha256_iv. Proof. vm_compute. reflexivity. Qed.
Lemma IV512_ok : IV512 = sha512_iv. Proof. vm_compute. reflexivity. Qed.
Lemma IV384_ok : IV384 = sha384_iv. Proof. vm_compute. reflexivity. Qed.

Lemma matches256 : matches cfg256 p256 (K_of p256).
Proof.
  rewrite K256_ok. constructor; try reflexivity.
  - intros. apply t32_mod.
  - intros. cbn [c_S0 cfg256 sp_S0 p256 SIG rot3 c_ror]. rewrite !ror32_ROTR by lia. reflexivity.
  - intros. cbn [c_S1 cfg256 sp_S1 p256 SIG rot3 c_ror]. rewrite !ror32_ROTR by lia. reflexivity.
  - intros. cbn [c_s0 cfg256 sp_s0 p256 sig rot2 c_ror]. rewrite !ror32_ROTR by lia. reflexivity.
  - intros. cbn [c_s1 cfg256 sp_s1 p256 sig rot2 c_ror]. rewrite !ror32_ROTR by lia. reflexivity.
  - cbn. lia.
Qed.
Lemma matches512 : matches cfg512 p512 (K_of p512).
Proof.
  rewrite K512_ok. constructor; try reflexivity.
  - intros. apply t64_mod.
  - intros. cbn [c_S0 cfg512 sp_S0 p512 SIG rot3 c_ror]. rewrite !ror64_ROTR by lia. reflexivity.
  - intros. cbn [c_S1 cfg512 sp_S1 p512 SIG rot3 c_ror]. rewrite !ror64_ROTR by lia. reflexivity.
  - intros. cbn [c_s0 cfg512 sp_s0 p512 sig rot2 c_ror]. rewrite !ror64_ROTR by lia. reflexivity.
  - intros. cbn [c_s1 cfg512 sp_s1 p512 sig rot2 c_ror]. rewrite !ror64_ROTR by lia. reflexivity.
  - cbn. lia.
Qed.

(** ** Message schedule *)
Section Sched.
  Variable P : sha2_params.

  Lemma length_sched : forall n M, length (sched P n M) = (n + length M)%nat.
  Proof. induction n; intros M; cbn [sched]; auto. rewrite app_length, IHn. cbn [length]. lia. Qed.

  Lemma sched_prefix : forall k n M i, (i < n + length M)%nat ->
    nth i (sched P (k + n) M) 0 = nth i (sched P n M) 0.
  Proof.
    induction k; intros n M i Hi; auto. cbn [Nat.add sched]. rewrite app_nth1 by (rewrite length_sched; lia).
    apply IHk. auto.
  Qed.

  Lemma sched_rec : forall n M t, length M = 16%nat -> (16 <= t < 16 + n)%nat ->
    let W := sched P n M in
    nth t W 0 = (rot2 P (sp_s1 P) (nth (t - 2) W 0) + nth (t - 7) W 0 + rot2 P (sp_s0 P) (nth (t - 15) W 0)
                 + nth (t - 16) W 0) mod 2 ^ sp_w P.
  Proof.
    intros n M t HM Ht W. unfold W.
    replace n with ((n - (t - 15)) + (t - 15))%nat by lia.
    rewrite !sched_prefix by lia.
    replace (t - 15)%nat with (S (t - 16)) by lia. cbn [sched].
    rewrite app_nth2 by (rewrite length_sched; lia).
    rewrite length_sched. replace (t - (t - 16 + length M))%nat with 0%nat by lia. cbn [nth].
    rewrite !app_nth1 by (rewrite length_sched; lia).
    replace (14 + (t - 16))%nat with (t - 2)%nat by lia.
    replace (9 + (t - 16))%nat with (t - 7)%nat by lia.
    replace (1 + (t - 16))%nat with (t - 15)%nat by lia.
    replace (S (t - 16)) with (t - 15)%nat by lia.
    reflexivity.
  Qed.

  Lemma sched_init : forall n M i, length M = 16%nat -> (i < 16)%nat -> nth i (sched P n M) 0 = nth i M 0.
  Proof.
    intros n M i HM Hi. replace n with (n + 0)%nat by lia. rewrite sched_prefix by lia. reflexivity.
  Qed.
End Sched.

Section Proof.
  Variable c : sha2_cfg.
  Variable P : sha2_params.
  Variable K : list Z.
  Hypothesis HM : matches c P K.

  Let n := 2 ^ sp_w P.
  Lemma add_def : forall x y, add c x y = (x + y) mod n.
  Proof. intros. apply (m_tr _ _ _ HM). Qed.
  Lemma add_l : forall x y, add c (x mod n) y = (x + y) mod n.
  Proof. intros. rewrite add_def. apply Zplus_mod_idemp_l. Qed.
  Lemma add4 : forall x y z t, add c (add c (add c x y) z) t = (x + y + z + t) mod n.
  Proof. intros. rewrite (add_def x y), !add_l. reflexivity. Qed.
  Lemma add5 : forall x y z t u, add c (add c (add c (add c x y) z) t) u = (x + y + z + t + u) mod n.
  Proof. intros. rewrite (add4 x y z t), !add_l. reflexivity. Qed.

  Lemma CH_ok : forall x y z, CH c x y z = Ch P x y z.
  Proof. intros. unfold CH, Ch. rewrite (m_not _ _ _ HM). reflexivity. Qed.

  Definition winv (Ws W : list Z) (i : nat) : Prop :=
    length W = c_nr c /\ forall j, (j < i)%nat -> (i <= j + 16)%nat -> get W j = nth j Ws 0.

  Lemma step_ok : forall inp W v i, (i < c_nr c)%nat ->
    let Ws := sched P (sp_nr P - 16) (words_of P inp) in
    winv Ws W i ->
    winv Ws (fst (transform_step c inp (W, v) i)) (S i) /\
    snd (transform_step c inp (W, v) i) = sround P K Ws v i.
  Proof.
    intros inp W v i Hi Ws [Hl HW].
    destruct v as [[[[[[[a b] c'] d] e] f] g] h].
    cbn [transform_step]. cbn beta iota zeta.
    match goal with |- context [if (i <? 16)%nat then ?A else ?B] =>
      set (W' := if (i <? 16)%nat then A else B) end.
    assert (HW' : length W' = c_nr c /\ (forall j, (j < S i)%nat -> (S i <= j + 16)%nat -> get W' j = nth j Ws 0)
                  /\ get W' i = nth i Ws 0).
    { assert (HMl : length (words_of P inp) = 16%nat)
        by (unfold words_of; rewrite map_length, seq_length; reflexivity).
      unfold W'. destruct (i <? 16)%nat eqn:E.
      - apply Nat.ltb_lt in E.
        assert (G : get (upd W i (be_val (slice inp (c_wb c * i) (c_wb c)))) i = nth i Ws 0).
        { rewrite get_upd_same by lia. unfold Ws. rewrite sched_init by auto.
          unfold words_of. rewrite nth_map_seq by lia. rewrite (m_wb _ _ _ HM). reflexivity. }
        split; [rewrite length_upd; auto|]. split; [|exact G].
        intros j Hj1 Hj2. destruct (Nat.eq_dec i j) as [->|N]; [exact G|].
        rewrite get_upd_other by auto. apply HW; lia.
      - apply Nat.ltb_ge in E.
        set (v := add c _ _).
        assert (G : v = nth i Ws 0).
        { unfold v, Ws. rewrite sched_rec by (try exact HMl; rewrite (m_nr _ _ _ HM) in *; lia).
          rewrite add4, (m_s1 _ _ _ HM), (m_s0 _ _ _ HM). fold Ws. rewrite !HW by lia. reflexivity. }
        assert (G2 : get (upd (upd W i v) (i - 16) 0) i = nth i Ws 0).
        { rewrite get_upd_other, get_upd_same by lia. exact G. }
        split; [rewrite !length_upd; auto|]. split; [|exact G2].
        intros j Hj1 Hj2. destruct (Nat.eq_dec i j) as [->|N]; [exact G2|].
        rewrite !get_upd_other by lia. apply HW; lia. }
    clearbody W'. destruct HW' as (Hl' & HW' & Hi').
    cbn [fst snd]. split; [split; auto|].
    unfold sround. rewrite Hi', CH_ok, (m_S1 _ _ _ HM), (m_S0 _ _ _ HM), (m_K _ _ _ HM).
    rewrite (add5 h _ _ _ (nth i Ws 0)), !add_def.
    rewrite <- Zplus_mod, Zplus_mod_idemp_r. reflexivity.
  Qed.

  Lemma steps_ok : forall inp k i W v, (i + k <= c_nr c)%nat ->
    let Ws := sched P (sp_nr P - 16) (words_of P inp) in
    winv Ws W i ->
    snd (fold_left (transform_step c inp) (seq i k) (W, v)) = fold_left (sround P K Ws) (seq i k) v.
  Proof.
    induction k as [|k IH]; intros i W v Hn Ws HW; [reflexivity|].
    cbn [seq fold_left].
    destruct (step_ok inp W v i ltac:(lia) HW) as [H1 H2].
    destruct (transform_step c inp (W, v) i) as [W' v']. cbn [fst snd] in *.
    fold Ws in H2. rewrite <- H2. apply (IH (S i) W' v'); auto. lia.
  Qed.

  Lemma transform_ok : forall H inp, length H = 8%nat -> transform c H inp = compress P K H inp.
  Proof.
    intros H inp Hl.
    destruct H as [|a [|b [|c' [|d [|e [|f [|g [|h [|? ?]]]]]]]]]; try discriminate Hl. clear Hl.
    unfold transform, compress. cbn [get nth].
    pose proof (steps_ok inp (c_nr c) 0 (zeros (c_nr c)) (a, b, c', d, e, f, g, h) ltac:(lia)) as Q.
    cbn zeta in Q. rewrite (m_nr _ _ _ HM) in *.
    assert (HW0 : winv (sched P (sp_nr P - 16) (words_of P inp)) (zeros (sp_nr P)) 0).
    { split; [rewrite (m_nr _ _ _ HM); apply length_zeros|]. intros. lia. }
    specialize (Q HW0). clear HW0.
    destruct (fold_left (transform_step c inp) _ _) as [W v]. cbn [snd] in Q. subst v.
    destruct (fold_left (sround _ _ _) _ _) as [[[[[[[a' b'] c''] d'] e'] f'] g'] h'].
    cbn [map fst snd]. unfold add. rewrite !(m_tr _ _ _ HM). reflexivity.
  Qed.

  Lemma length_transform : forall H inp, length (transform c H inp) = 8%nat.
  Proof.
    intros. unfold transform. destruct (fold_left _ _ _) as [W v].
    destruct v as [[[[[[[a' b'] c''] d'] e'] f'] g'] h']. reflexivity.
  Qed.

  (** ** Streaming *)
  Hypothesis Hwb : (0 < c_wb c)%nat.
  Lemma Hbs : (0 < bs c)%nat. Proof. unfold bs. lia. Qed.
  Hint Resolve Hbs : core.

  Definition Hof (IV m : list Z) : list Z := fold_left (transform c) (full_chunks (bs c) m) IV.

  Record sinv2 (IV : list Z) (x : sctx) (m : list Z) : Prop := {
    i_H : s_H x = Hof IV m;
    i_len : s_msglen x = Z.of_nat (length m);
    i_pl : length (s_partial x) = bs c;
    i_p : firstn (length m mod bs c) (s_partial x) = tail_chunk (bs c) m }.

  Lemma full_loop_ok : forall fuel H inp, (length inp <= fuel)%nat ->
    full_loop c fuel H inp = (fold_left (transform c) (full_chunks (bs c) inp) H, tail_chunk (bs c) inp).
  Proof.
    induction fuel as [|f IH]; intros H inp Hf; cbn [full_loop].
    - destruct inp; simpl in Hf; [|lia].
      destruct (full_chunks_small (bs c) [] Hbs) as [-> ->]; [simpl; auto|]. reflexivity.
    - destruct (bs c <=? length inp)%nat eqn:E.
      + apply Nat.leb_le in E. pose proof Hbs. rewrite IH by (rewrite skipn_length; lia).
        rewrite <- (firstn_skipn (bs c) inp) at 4 5.
        destruct (full_chunks_cons (bs c) (firstn (bs c) inp) (skipn (bs c) inp) Hbs) as [-> ->].
        { rewrite firstn_length. lia. }
        reflexivity.
      + apply Nat.leb_gt in E. destruct (full_chunks_small (bs c) inp Hbs E) as [-> ->]. reflexivity.
  Qed.

  Lemma firstn_store_at : forall s off d, (off + length d <= length s)%nat ->
    firstn (off + length d) (store_at s off d) = firstn off s ++ d.
  Proof.
    intros s off d H. unfold store_at. rewrite app_assoc.
    rewrite (firstn_all2 d) by lia.
    rewrite firstn_app_l by (rewrite app_length, firstn_length; lia).
    apply firstn_all2. rewrite app_length, firstn_length. lia.
  Qed.

  Lemma store_at_full : forall s off d, length s = (off + length d)%nat ->
    store_at s off d = firstn off s ++ d.
  Proof.
    intros s off d H. rewrite <- firstn_store_at by lia. symmetry. apply firstn_all2.
    rewrite store_at_length by lia. lia.
  Qed.

  Lemma partial2_eq : forall IV x m, sinv2 IV x m ->
    Z.to_nat (s_msglen x mod Z.of_nat (bs c)) = (length m mod bs c)%nat.
  Proof.
    intros IV x m H. rewrite (i_len _ _ _ H), <- Nat2Z.inj_mod, Nat2Z.id. reflexivity.
  Qed.

  Lemma update2_inv : forall IV x m d, sinv2 IV x m ->
    Z.of_nat (length m + length d) < 2 ^ 64 -> sinv2 IV (sha2_update c x d) (m ++ d).
  Proof.
    intros IV x m d H Hlen. pose proof Hbs as HB. unfold sha2_update.
    rewrite (partial2_eq _ _ _ H).
    assert (Hml : t64 (s_msglen x + Z.of_nat (length d)) = Z.of_nat (length (m ++ d))).
    { rewrite (i_len _ _ _ H), app_length, Nat2Z.inj_add. apply t64_id. unfold w64. lia. }
    rewrite Hml. clear Hml.
    pose proof (tail_chunk_length (bs c) m HB) as Ht.
    pose proof (Nat.mod_upper_bound (length m) (bs c) ltac:(lia)) as Hub.
    pose proof (tail_chunk_length (bs c) (m ++ d) HB) as Htd.
    destruct (full_chunks_app (bs c) m d HB) as [F1 F2].
    pose proof (i_pl _ _ _ H) as Hpl. pose proof (i_p _ _ _ H) as Hp.
    destruct (length m mod bs c =? 0)%nat eqn:E0.
    - apply Nat.eqb_eq in E0. rewrite E0 in Ht. apply length_zero_iff_nil in Ht.
      rewrite Ht in F1, F2. cbn [app] in F1, F2.
      rewrite full_loop_ok by lia. pose proof (tail_chunk_lt (bs c) d HB).
      constructor; cbn [s_H s_msglen s_partial]; auto.
      + unfold Hof. rewrite F1, fold_left_app, (i_H _ _ _ H). reflexivity.
      + rewrite store_at_length; lia.
      + rewrite <- Htd, F2. rewrite <- (Nat.add_0_l (length _)).
        rewrite firstn_store_at by lia. reflexivity.
    - apply Nat.eqb_neq in E0. destruct (length d <? bs c - length m mod bs c)%nat eqn:E1.
      + apply Nat.ltb_lt in E1.
        destruct (full_chunks_small (bs c) (tail_chunk (bs c) m ++ d) HB) as [G1 G2].
        { rewrite app_length. lia. }
        constructor; cbn [s_H s_msglen s_partial]; auto.
        * unfold Hof. rewrite F1, G1, app_nil_r. apply (i_H _ _ _ H).
        * rewrite store_at_length; lia.
        * rewrite <- Htd, F2, G2, app_length, Ht. rewrite firstn_store_at by lia. rewrite Hp. reflexivity.
      + apply Nat.ltb_ge in E1. set (todo := (bs c - length m mod bs c)%nat) in *.
        assert (Htl : length (firstn todo d) = todo) by (rewrite firstn_length; lia).
        rewrite full_loop_ok by lia.
        destruct (full_chunks_cons (bs c) (tail_chunk (bs c) m ++ firstn todo d) (skipn todo d) HB) as [G1 G2].
        { rewrite app_length. lia. }
        rewrite <- app_assoc, firstn_skipn in G1, G2.
        rewrite (store_at_full (s_partial x)) by lia. rewrite Hp.
        pose proof (tail_chunk_lt (bs c) (skipn todo d) HB).
        assert (HL : length (tail_chunk (bs c) m ++ firstn todo d) = bs c) by (rewrite app_length; lia).
        constructor; cbn [s_H s_msglen s_partial]; auto.
        * unfold Hof. rewrite F1, G1, fold_left_app, (i_H _ _ _ H). reflexivity.
        * rewrite store_at_length; lia.
        * rewrite <- Htd, F2, G2. rewrite <- (Nat.add_0_l (length _)).
          rewrite firstn_store_at by lia. reflexivity.
  Qed.

  Lemma updates2_inv : forall ms IV x m, sinv2 IV x m ->
    Z.of_nat (length m + length (concat ms)) < 2 ^ 64 ->
    sinv2 IV (sha2_updates c x ms) (m ++ concat ms).
  Proof.
    induction ms as [|d ms IH]; intros IV x m H Hlen; cbn [concat] in *.
    - rewrite app_nil_r. exact H.
    - unfold sha2_updates. cbn [fold_left]. rewrite app_assoc. apply IH.
      + apply update2_inv; auto. rewrite app_length in Hlen. lia.
      + rewrite !app_length in *. lia.
  Qed.

  Lemma init2_inv : forall IV old, length old = bs c -> sinv2 IV (sha2_init IV old) [].
  Proof.
    intros IV old H. pose proof Hbs as HB.
    destruct (full_chunks_small (bs c) [] HB) as [F1 F2]; [simpl; auto|].
    constructor; cbn [s_H s_msglen s_partial sha2_init].
    - unfold Hof. rewrite F1. reflexivity.
    - reflexivity.
    - exact H.
    - rewrite F2. cbn [length]. rewrite Nat.mod_0_l by lia. reflexivity.
  Qed.

  Lemma zero_count_eq : forall len, (8 <= c_lf c)%nat -> (c_lf c + 1 < bs c)%nat ->
    zero_count P len = if (bs c - c_lf c <? len mod bs c + 1)%nat
                       then (2 * bs c - (len mod bs c + 1 + c_lf c))%nat
                       else (bs c - (len mod bs c + 1 + c_lf c))%nat.
  Proof.
    intros len H8 Hl. unfold zero_count. pose proof Hbs as HB.
    assert (EB : blocksize P = bs c) by (unfold blocksize, bs; rewrite (m_wb _ _ _ HM); reflexivity).
    rewrite EB, <- (m_lf _ _ _ HM).
    pose proof (Nat.mod_upper_bound len (bs c) ltac:(lia)) as Hub.
    replace (len + 1 + c_lf c)%nat with (len + (1 + c_lf c))%nat by lia.
    rewrite <- Nat.add_mod_idemp_l by lia. set (L := (len mod bs c)%nat) in *.
    destruct (bs c - c_lf c <? L + 1)%nat eqn:E.
    - apply Nat.ltb_lt in E.
      replace ((L + (1 + c_lf c)) mod bs c)%nat with (L + 1 + c_lf c - bs c)%nat
        by (apply (Nat.mod_unique _ _ 1); lia).
      replace (L + 1 + c_lf c - bs c =? 0)%nat with false by (symmetry; apply Nat.eqb_neq; lia). lia.
    - apply Nat.ltb_ge in E. destruct (Nat.eq_dec (L + 1 + c_lf c) (bs c)) as [N|N].
      + replace (L + (1 + c_lf c))%nat with (bs c) by lia. rewrite Nat.mod_same by lia. cbn [Nat.eqb]. lia.
      + rewrite Nat.mod_small by lia.
        replace (L + (1 + c_lf c) =? 0)%nat with false by (symmetry; apply Nat.eqb_neq; lia). lia.
  Qed.

  Lemma be_bytes_zeros : forall k v, 0 <= v < 2 ^ 64 -> be_bytes (k + 8) v = zeros k ++ be_bytes 8 v.
  Proof.
    intros k v Hv. apply (f_equal (@rev Z)) || idtac.
    unfold be_bytes. rewrite <- (rev_involutive (zeros k)), <- rev_app_distr. f_equal.
    rewrite Nat.add_comm.
    assert (G : forall a x, le_bytes (a + k) x = le_bytes a x ++ le_bytes k (x / 256 ^ Z.of_nat a)).
    { induction a as [|a IH]; intros x.
      - cbn [Nat.add le_bytes app]. change (Z.of_nat 0) with 0. rewrite Z.pow_0_r, Z.div_1_r. reflexivity.
      - cbn [Nat.add le_bytes app]. rewrite IH. f_equal. f_equal. f_equal.
        rewrite Z.div_div by (try lia; apply Z.pow_pos_nonneg; lia). f_equal.
        rewrite Nat2Z.inj_succ, Z.pow_succ_r by lia. reflexivity. }
    rewrite G. f_equal. rewrite Z.div_small by exact Hv.
    rewrite rev_zeros. clear. induction k; [reflexivity|]. cbn [le_bytes zeros repeat].
    f_equal. exact IHk.
  Qed.

  Lemma final_ok : forall IV x m, sinv2 IV x m -> length IV = 8%nat ->
    Z.of_nat (length m) < 2 ^ 61 -> (8 <= c_lf c)%nat -> (c_lf c + 1 < bs c)%nat ->
    s_H (sha2_final_internal c x) = sha2_H P K IV m.
  Proof.
    intros IV x m H HIV Hlen H8 Hl. pose proof Hbs as HB. unfold sha2_final_internal.
    rewrite (partial2_eq _ _ _ H).
    assert (Hml : t64 (Z.shiftl (s_msglen x) 3) = 8 * Z.of_nat (length m)).
    { rewrite (i_len _ _ _ H), Z.shiftl_mul_pow2 by lia. rewrite t64_id; [lia|]. unfold w64. lia. }
    rewrite Hml. clear Hml.
    pose proof (tail_chunk_length (bs c) m HB) as Ht.
    pose proof (Nat.mod_upper_bound (length m) (bs c) ltac:(lia)) as Hub.
    pose proof (i_pl _ _ _ H) as Hpl. pose proof (i_p _ _ _ H) as Hp.
    unfold sha2_H, pad2.
    assert (EB : blocksize P = bs c) by (unfold blocksize, bs; rewrite (m_wb _ _ _ HM); reflexivity).
    rewrite EB, <- (m_lf _ _ _ HM), zero_count_eq by auto.
    set (L := (length m mod bs c)%nat) in *. set (t := tail_chunk (bs c) m) in *.
    set (bits := 8 * Z.of_nat (length m)).
    assert (EBB : be_bytes (c_lf c) bits = zeros (c_lf c - 8) ++ be_bytes 8 bits).
    { rewrite <- be_bytes_zeros by (unfold bits; lia). f_equal. lia. }
    rewrite EBB. clear EBB.
    assert (HTr : forall cs H0, length H0 = 8%nat ->
      fold_left (transform c) cs H0 = fold_left (compress P K) cs H0).
    { induction cs as [|b cs IH]; intros H0 HH; [reflexivity|]. cbn [fold_left].
      rewrite <- transform_ok by auto. apply IH. apply length_transform. }
    rewrite <- HTr by auto.
    assert (B1 : store_at (s_partial x) L [128] = t ++ [128] ++ skipn (L + 1) (s_partial x)).
    { unfold store_at. rewrite Hp. f_equal. f_equal. apply firstn_all2. cbn [length]. lia. }
    assert (B2 : store_at (store_at (s_partial x) L [128]) (L + 1) (zeros (bs c - (L + 1))) =
                 t ++ [128] ++ zeros (bs c - (L + 1))).
    { rewrite store_at_full.
      - rewrite B1, !app_assoc. f_equal. rewrite firstn_app_l by (rewrite app_length; cbn [length]; lia).
        apply firstn_all2. rewrite app_length. cbn [length]. lia.
      - rewrite store_at_length, length_zeros; cbn [length]; lia. }
    destruct (full_chunks_app (bs c) m
      ([128] ++ zeros (if (bs c - c_lf c <? L + 1)%nat then 2 * bs c - (L + 1 + c_lf c)
                       else bs c - (L + 1 + c_lf c)) ++ zeros (c_lf c - 8) ++ be_bytes 8 bits) HB) as [F _].
    fold t in F.
    assert (Hl8 : length (be_bytes 8 bits) = 8%nat) by apply length_be_bytes.
    destruct (bs c - c_lf c <? L + 1)%nat eqn:E.
    - apply Nat.ltb_lt in E. rewrite B2.
      cbn [s_H].
      assert (B3 : store_at (t ++ [128] ++ zeros (bs c - (L + 1))) 0 (zeros (bs c - 0)) = zeros (bs c)).
      { rewrite store_at_full; [rewrite Nat.sub_0_r; reflexivity|].
        rewrite !app_length, !length_zeros. cbn [length]. lia. }
      rewrite B3.
      assert (B4 : store_at (zeros (bs c)) (bs c - 8) (be_bytes 8 bits) = zeros (bs c - 8) ++ be_bytes 8 bits).
      { rewrite store_at_full by (rewrite length_zeros, Hl8; lia). f_equal.
        apply firstn_zeros. lia. }
      rewrite B4.
      assert (F' : full_chunks (bs c) (t ++ [128] ++ zeros (2 * bs c - (L + 1 + c_lf c)) ++
                     zeros (c_lf c - 8) ++ be_bytes 8 bits) =
                   [t ++ [128] ++ zeros (bs c - (L + 1)); zeros (bs c - 8) ++ be_bytes 8 bits]).
      { replace (t ++ [128] ++ zeros (2 * bs c - (L + 1 + c_lf c)) ++ zeros (c_lf c - 8) ++ be_bytes 8 bits)
          with ((t ++ [128] ++ zeros (bs c - (L + 1))) ++ (zeros (bs c - 8) ++ be_bytes 8 bits) ++ []).
        - destruct (full_chunks_cons (bs c) (t ++ [128] ++ zeros (bs c - (L + 1)))
            ((zeros (bs c - 8) ++ be_bytes 8 bits) ++ []) HB) as [-> _].
          { rewrite !app_length, length_zeros. cbn [length]. lia. }
          destruct (full_chunks_cons (bs c) (zeros (bs c - 8) ++ be_bytes 8 bits) [] HB) as [-> _].
          { rewrite app_length, length_zeros. lia. }
          destruct (full_chunks_small (bs c) [] HB) as [-> _]; [simpl; auto|]. reflexivity.
        - rewrite app_nil_r, <- !app_assoc. f_equal. f_equal. rewrite !app_assoc. f_equal.
          rewrite <- !zeros_app. f_equal. lia. }
      rewrite F, F', fold_left_app. cbn [fold_left]. f_equal. f_equal. apply (i_H _ _ _ H).
    - apply Nat.ltb_ge in E. rewrite B2. cbn [s_H].
      assert (B4 : store_at (t ++ [128] ++ zeros (bs c - (L + 1))) (bs c - 8) (be_bytes 8 bits) =
                   t ++ [128] ++ zeros (bs c - (L + 1 + c_lf c)) ++ zeros (c_lf c - 8) ++ be_bytes 8 bits).
      { rewrite store_at_full.
        - replace (zeros (bs c - (L + 1))) with
            ((zeros (bs c - (L + 1 + c_lf c)) ++ zeros (c_lf c - 8)) ++ zeros 8).
          + rewrite !app_assoc. f_equal.
            rewrite firstn_app_l by (rewrite !app_length, !length_zeros; cbn [length]; lia).
            apply firstn_all2. rewrite !app_length, !length_zeros; cbn [length]; lia.
          + rewrite <- !zeros_app. f_equal. lia.
        - rewrite !app_length, !length_zeros, Hl8. cbn [length]. lia. }
      rewrite B4. rewrite F, fold_left_app.
      assert (F' : full_chunks (bs c) (t ++ [128] ++ zeros (bs c - (L + 1 + c_lf c)) ++
                     zeros (c_lf c - 8) ++ be_bytes 8 bits) =
                   [t ++ [128] ++ zeros (bs c - (L + 1 + c_lf c)) ++ zeros (c_lf c - 8) ++ be_bytes 8 bits]).
      { rewrite <- (app_nil_r (t ++ _)) at 1.
        match goal with |- full_chunks _ (?b ++ []) = _ =>
          destruct (full_chunks_cons (bs c) b [] HB) as [-> _] end.
        { rewrite !app_length, !length_zeros. cbn [length]. lia. }
        destruct (full_chunks_small (bs c) [] HB) as [-> _]; [simpl; auto|]. reflexivity. }
      rewrite F'. cbn [fold_left]. f_equal. apply (i_H _ _ _ H).
  Qed.
End Proof.

Lemma sha2_streaming : forall c P K IV n old ms, matches c P K -> length IV = 8%nat ->
  (0 < c_wb c)%nat -> (8 <= c_lf c)%nat -> (c_lf c + 1 < bs c)%nat -> length old = bs c ->
  Z.of_nat (length (concat ms)) < 2 ^ 61 ->
  sha2_final c n (sha2_updates c (sha2_init IV old) ms) = sha2 P K IV n (concat ms).
Proof.
  intros c P K IV n old ms HM HIV Hwb H8 Hl Ho Hlen. unfold sha2_final, sha2.
  rewrite (m_wb _ _ _ HM). f_equal. f_equal.
  apply final_ok; auto.
  apply (updates2_inv c P Hwb ms IV (sha2_init IV old) []); [|cbn [length]; lia].
  apply init2_inv; auto.
Qed.

Lemma sha256_streaming : forall old ms, length old = 64%nat -> Z.of_nat (length (concat ms)) < 2 ^ 61 ->
  sha2_final cfg256 8 (sha2_updates cfg256 (sha2_init sha256_iv old) ms) = SHA256 (concat ms).
Proof.
  intros old ms Ho Hl. unfold SHA256. rewrite IV256_ok.
  apply (sha2_streaming _ _ _ _ _ _ _ matches256);
    [reflexivity|cbn; lia|cbn; lia|cbn; lia|exact Ho|exact Hl].
Qed.

Lemma sha512_streaming : forall old ms, length old = 128%nat -> Z.of_nat (length (concat ms)) < 2 ^ 61 ->
  sha2_final cfg512 8 (sha2_updates cfg512 (sha2_init sha512_iv old) ms) = SHA512 (concat ms).
Proof.
  intros old ms Ho Hl. unfold SHA512. rewrite IV512_ok.
  apply (sha2_streaming _ _ _ _ _ _ _ matches512);
    [reflexivity|cbn; lia|cbn; lia|cbn; lia|exact Ho|exact Hl].
Qed.

Lemma sha384_streaming : forall old ms, length old = 128%nat -> Z.of_nat (length (concat ms)) < 2 ^ 61 ->
  sha2_final cfg512 6 (sha2_updates cfg512 (sha2_init sha384_iv old) ms) = SHA384 (concat ms).
Proof.
  intros old ms Ho Hl. unfold SHA384. rewrite IV384_ok.
  apply (sha2_streaming _ _ _ _ _ _ _ matches512);
    [reflexivity|cbn; lia|cbn; lia|cbn; lia|exact Ho|exact Hl].
Qed.
