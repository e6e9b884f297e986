(** Modes of operation and ChaCha20 against their standards. *)
From Verif Require Import Bytes Words AesModel ModesSpec ModesModel.

Definition blocks16 (bs : list (list Z)) : Prop := Forall (fun b => length b = 16%nat) bs.
Lemma concat16_len : forall bs, blocks16 bs -> length (concat bs) = (16 * length bs)%nat.
Proof. induction 1 as [|b bs Hb H IH]; cbn [concat length]; [reflexivity|]. rewrite app_length. lia. Qed.

Lemma leq_eq : forall a b, leq a b = true <-> a = b.
Proof.
  induction a as [|x a IH]; intros [|y b]; cbn [leq]; split; intros H; try reflexivity; try discriminate H.
  - apply andb_prop in H. destruct H as [H1 H2]. apply IH in H2. f_equal; [lia|auto].
  - injection H as -> ->. rewrite Z.eqb_refl. apply IH. reflexivity.
Qed.

(** * CBC *)
Lemma last_cons_d : forall (l : list (list Z)) x d, last (x :: l) d = last l x.
Proof.
  induction l as [|y l IH]; intros x d; [reflexivity|]. change (last (x :: y :: l) d) with (last (y :: l) d).
  rewrite IH. symmetry. apply IH.
Qed.
Section CBC.
  Variables (E D : list Z -> list Z).
  Hypothesis LE : forall b, length b = 16%nat -> length (E b) = 16%nat.
  Hypothesis DE : forall b, length b = 16%nat -> bytes b -> D (E b) = b.

  Lemma cbc_enc_loop_spec : forall ps iv, blocks16 ps -> length iv = 16%nat ->
    cbc_enc_loop E (length ps) iv (concat ps) = (concat (CBC_enc E iv ps), last (CBC_enc E iv ps) iv).
  Proof.
    induction ps as [|p ps IH]; intros iv Hp Hi; [reflexivity|].
    inversion Hp as [|? ? Hl Hr]; subst. cbn [length cbc_enc_loop concat CBC_enc].
    replace (firstn 16 (p ++ concat ps)) with p by (rewrite <- Hl; symmetry; apply firstn_length_app).
    replace (skipn 16 (p ++ concat ps)) with (concat ps) by (rewrite <- Hl; symmetry; apply skipn_length_app).
    rewrite IH; [|exact Hr|apply LE; rewrite length_xorl; lia].
    rewrite last_cons_d. reflexivity.
  Qed.
  Lemma cbc_dec_loop_spec : forall cs iv, blocks16 cs ->
    cbc_dec_loop D (length cs) iv (concat cs) = (concat (CBC_dec D iv cs), last cs iv).
  Proof.
    induction cs as [|c cs IH]; intros iv Hc; [reflexivity|].
    inversion Hc as [|? ? Hl Hr]; subst. cbn [length cbc_dec_loop concat CBC_dec].
    replace (firstn 16 (c ++ concat cs)) with c by (rewrite <- Hl; symmetry; apply firstn_length_app).
    replace (skipn 16 (c ++ concat cs)) with (concat cs) by (rewrite <- Hl; symmetry; apply skipn_length_app).
    rewrite IH by exact Hr. rewrite last_cons_d. reflexivity.
  Qed.
  Lemma cbc_encrypt_spec : forall iv ps out, blocks16 ps -> length iv = 16%nat ->
    length out = length (concat ps) ->
    mode_cbc_encrypt E iv (concat ps) out = (concat (CBC_enc E iv ps), last (CBC_enc E iv ps) iv).
  Proof.
    intros iv ps out Hp Hi Ho. unfold mode_cbc_encrypt. rewrite (concat16_len ps Hp) in *.
    replace (16 * length ps / 16)%nat with (length ps) by (rewrite Nat.mul_comm, Nat.div_mul; lia).
    rewrite (firstn_all2 (concat ps)) by (rewrite (concat16_len ps Hp); lia).
    rewrite cbc_enc_loop_spec by auto. rewrite (skipn_all2 out) by lia. rewrite app_nil_r. reflexivity.
  Qed.
  Lemma cbc_decrypt_spec : forall iv cs out, blocks16 cs -> length out = length (concat cs) ->
    mode_cbc_decrypt D iv (concat cs) out = (concat (CBC_dec D iv cs), last cs iv).
  Proof.
    intros iv cs out Hp Ho. unfold mode_cbc_decrypt. rewrite (concat16_len cs Hp) in *.
    replace (16 * length cs / 16)%nat with (length cs) by (rewrite Nat.mul_comm, Nat.div_mul; lia).
    rewrite (firstn_all2 (concat cs)) by (rewrite (concat16_len cs Hp); lia).
    rewrite cbc_dec_loop_spec by auto. rewrite (skipn_all2 out) by lia. rewrite app_nil_r. reflexivity.
  Qed.
  Lemma CBC_enc_blocks : forall ps iv, blocks16 ps -> length iv = 16%nat -> blocks16 (CBC_enc E iv ps).
  Proof.
    induction ps as [|p ps IH]; intros iv Hp Hi; cbn [CBC_enc]; [constructor|]. inversion Hp; subst.
    assert (L : length (E (xorl p iv)) = 16%nat) by (apply LE; rewrite length_xorl; lia).
    constructor; [exact L|]. apply IH; auto.
  Qed.
  Lemma last_len : forall ps iv, blocks16 ps -> length iv = 16%nat -> length (last ps iv) = 16%nat.
  Proof. induction 1 as [|p ps Hp H IH]; intros Hi; [exact Hi|]. cbn [last]. destruct ps; auto. Qed.
  Lemma CBC_enc_app : forall a b iv, CBC_enc E iv (a ++ b) = CBC_enc E iv a ++ CBC_enc E (last (CBC_enc E iv a) iv) b.
  Proof.
    induction a as [|p a IH]; intros b iv; [reflexivity|]. cbn [app CBC_enc]. rewrite IH, last_cons_d. reflexivity.
  Qed.
  Lemma CBC_dec_app : forall a b iv, CBC_dec D iv (a ++ b) = CBC_dec D iv a ++ CBC_dec D (last a iv) b.
  Proof.
    induction a as [|c a IH]; intros b iv; [reflexivity|]. cbn [app CBC_dec]. rewrite IH, last_cons_d. reflexivity.
  Qed.
  Lemma CBC_dec_enc : forall ps iv, blocks16 ps -> Forall bytes ps -> bytes iv -> length iv = 16%nat ->
    (forall b, length b = 16%nat -> bytes b -> bytes (E b)) ->
    CBC_dec D iv (CBC_enc E iv ps) = ps.
  Proof.
    intros ps iv Hp Hb Hi Li BE. revert iv Hi Li. induction ps as [|p ps IH]; intros iv Hi Li; [reflexivity|].
    inversion Hp; subst. inversion Hb; subst. cbn [CBC_enc CBC_dec].
    assert (L : length (xorl p iv) = 16%nat) by (rewrite length_xorl; lia).
    assert (B : bytes (xorl p iv)) by (apply bytes_xorl; auto).
    rewrite DE by auto. rewrite xorl_cancel by lia. f_equal. apply IH; auto.
  Qed.
  (** Successive calls, in place. *)
  Fixpoint cbc_enc_run (iv : list Z) (chunks : list (list Z)) : list Z * list Z :=
    match chunks with
    | [] => ([], iv)
    | d :: r => let '(o, iv) := mode_cbc_encrypt E iv d d in let '(o', iv') := cbc_enc_run iv r in (o ++ o', iv')
    end.
  Fixpoint cbc_dec_run (iv : list Z) (chunks : list (list Z)) : list Z * list Z :=
    match chunks with
    | [] => ([], iv)
    | d :: r => let '(o, iv) := mode_cbc_decrypt D iv d d in let '(o', iv') := cbc_dec_run iv r in (o ++ o', iv')
    end.
  Lemma cbc_enc_run_spec : forall bss iv, Forall blocks16 bss -> length iv = 16%nat ->
    fst (cbc_enc_run iv (map (@concat Z) bss)) = concat (CBC_enc E iv (concat bss)).
  Proof.
    induction bss as [|bs bss IH]; intros iv H Hi; [reflexivity|]. inversion H; subst. cbn [map cbc_enc_run concat].
    rewrite cbc_encrypt_spec by auto.
    specialize (IH (last (CBC_enc E iv bs) iv) ltac:(assumption)
      (last_len _ _ (CBC_enc_blocks bs iv ltac:(assumption) Hi) Hi)).
    destruct (cbc_enc_run (last (CBC_enc E iv bs) iv) (map (concat (A:=Z)) bss)) as [o' iv'].
    cbn [fst] in *. rewrite IH, CBC_enc_app, concat_app. reflexivity.
  Qed.
  Lemma cbc_dec_run_spec : forall bss iv, Forall blocks16 bss ->
    fst (cbc_dec_run iv (map (@concat Z) bss)) = concat (CBC_dec D iv (concat bss)).
  Proof.
    induction bss as [|bs bss IH]; intros iv H; [reflexivity|]. inversion H; subst. cbn [map cbc_dec_run concat].
    rewrite cbc_decrypt_spec by auto.
    specialize (IH (last bs iv) ltac:(assumption)).
    destruct (cbc_dec_run (last bs iv) (map (concat (A:=Z)) bss)) as [o' iv'].
    cbn [fst] in *. rewrite IH, CBC_dec_app, concat_app. reflexivity.
  Qed.
  (** Bytes of an incomplete last block. *)
  Lemma cbc_encrypt_tail : forall iv inp out, length out = length inp -> length iv = 16%nat ->
    skipn (length inp / 16 * 16) (fst (mode_cbc_encrypt E iv inp out)) = skipn (length inp / 16 * 16) out.
  Proof.
    intros iv inp out Ho Hi. unfold mode_cbc_encrypt. set (n := (length inp / 16)%nat).
    assert (Hn : (n * 16 <= length inp)%nat) by (unfold n; pose proof (Nat.mul_div_le (length inp) 16); lia).
    assert (G : forall k buf iv, length iv = 16%nat -> length buf = (k * 16)%nat -> length (fst (cbc_enc_loop E k iv buf)) = (k * 16)%nat).
    { induction k as [|k IH]; intros buf iv0 H0 H1; [reflexivity|]. cbn [cbc_enc_loop].
      set (c := E (xorl (firstn 16 buf) iv0)).
      assert (Lc : length c = 16%nat) by (apply LE; rewrite length_xorl, firstn_length; lia).
      specialize (IH (skipn 16 buf) c Lc ltac:(rewrite skipn_length; lia)).
      destruct (cbc_enc_loop E k c (skipn 16 buf)) as [r iv']. cbn [fst] in *. rewrite app_length. lia. }
    specialize (G n (firstn (n * 16) inp) iv Hi ltac:(rewrite firstn_length; lia)).
    destruct (cbc_enc_loop E n iv (firstn (n * 16) inp)) as [r iv']. cbn [fst] in *.
    rewrite <- G at 1. apply skipn_length_app.
  Qed.
End CBC.

(** * Key streams in blocks of B bytes *)
Section Stream.
  Variables (B : nat) (HB : (0 < B)%nat).
  Fixpoint gloop (f : nat) (blk : nat -> list Z) (data : list Z) : list Z :=
    match f, data with
    | O, _ => []
    | _, [] => []
    | S f', _ =>
        let todo := Nat.min (length data) B in
        xorl (firstn todo data) (firstn todo (blk O)) ++ gloop f' (fun j => blk (S j)) (skipn todo data)
    end.
  Lemma stream_S : forall (blk : nat -> list Z) n,
    flat_map blk (seq 0 (S n)) = blk O ++ flat_map (fun j => blk (S j)) (seq 0 n).
  Proof.
    intros. cbn [seq flat_map]. f_equal. rewrite <- seq_shift. rewrite !flat_map_concat_map, map_map. reflexivity.
  Qed.
  Lemma stream_len : forall n (blk : nat -> list Z), (forall j, length (blk j) = B) -> length (flat_map blk (seq 0 n)) = (n * B)%nat.
  Proof.
    induction n as [|n IH]; intros blk H; [reflexivity|]. rewrite stream_S, app_length, H.
    rewrite (IH (fun j => blk (S j))) by auto. lia.
  Qed.
  Lemma gloop_spec : forall f blk data, (forall j, length (blk j) = B) -> (length data <= f)%nat ->
    gloop f blk data = xorl data (firstn (length data) (flat_map blk (seq 0 f))).
  Proof.
    induction f as [|f IH]; intros blk data HL Hf.
    - destruct data; [reflexivity|cbn in Hf; lia].
    - destruct data as [|x data']; [reflexivity|]. set (data := x :: data') in *.
      change (gloop (S f) blk data) with
        (xorl (firstn (Nat.min (length data) B) data) (firstn (Nat.min (length data) B) (blk O))
         ++ gloop f (fun j => blk (S j)) (skipn (Nat.min (length data) B) data)).
      set (todo := Nat.min (length data) B).
      rewrite IH; [|intros; apply HL|rewrite skipn_length; assert (0 < length data)%nat by (unfold data; cbn; lia); unfold todo; lia].
      rewrite stream_S. rewrite !xorl_firstn_r by (rewrite ?firstn_length; lia).
      transitivity (xorl (firstn todo data ++ skipn todo data) (blk O ++ flat_map (fun j => blk (S j)) (seq 0 f)));
        [|rewrite firstn_skipn; reflexivity].
      destruct (Nat.le_gt_cases B (length data)) as [C|C].
      + rewrite xorl_app by (rewrite firstn_length, HL; unfold todo; lia). reflexivity.
      + assert (T : todo = length data) by (unfold todo; lia). rewrite T.
        rewrite firstn_all, skipn_all. cbn [xorl]. rewrite !app_nil_r.
        clear IH Hf T. clearbody data. clear todo x data'.
        assert (C' : (length data <= length (blk O))%nat) by (rewrite HL; lia). clear C HL.
        generalize dependent (blk O). generalize (flat_map (fun j => blk (S j)) (seq 0 f)).
        induction data as [|x d IH]; intros l b Hb; [reflexivity|].
        destruct b as [|y b]; [cbn in Hb; lia|]. cbn [xorl app]. f_equal. apply IH. cbn in Hb. lia.
  Qed.
  Lemma stream_app : forall n m (blk : nat -> list Z),
    flat_map blk (seq 0 (n + m)) = flat_map blk (seq 0 n) ++ flat_map (fun j => blk (n + j)%nat) (seq 0 m).
  Proof.
    induction n as [|n IH]; intros m blk; [reflexivity|]. cbn [Nat.add]. rewrite !stream_S, (IH m (fun j => blk (S j))), app_assoc.
    reflexivity.
  Qed.
  (** More key stream than needed does not matter. *)
  Lemma stream_more : forall (blk : nat -> list Z) data n, (forall j, length (blk j) = B) -> (length data <= n * B)%nat ->
    forall n', (n <= n')%nat ->
    xorl data (firstn (length data) (flat_map blk (seq 0 n'))) = xorl data (firstn (length data) (flat_map blk (seq 0 n))).
  Proof.
    intros blk data n HL Hd n' Hn. replace n' with (n + (n' - n))%nat by lia. rewrite stream_app.
    rewrite firstn_app_l; [reflexivity|]. rewrite stream_len by auto. lia.
  Qed.
  Lemma stream_cut : forall (blk : nat -> list Z) a b k n, (forall j, length (blk j) = B) -> length a = (k * B)%nat ->
    (length (a ++ b) <= n)%nat ->
    xorl (a ++ b) (firstn (length (a ++ b)) (flat_map blk (seq 0 n)))
    = xorl a (firstn (length a) (flat_map blk (seq 0 (length a))))
      ++ xorl b (firstn (length b) (flat_map (fun j => blk (k + j)%nat) (seq 0 (length b)))).
  Proof.
    intros blk a b k n HL Ha Hn.
    assert (Hk : (k <= length a)%nat) by nia.
    rewrite (stream_more blk a k HL ltac:(lia) (length a) Hk).
    rewrite app_length in Hn.
    rewrite <- (stream_more blk (a ++ b) n HL ltac:(rewrite app_length; nia) (k + n)) by lia.
    rewrite (app_length a b). rewrite stream_app.
    rewrite xorl_firstn_r by (rewrite app_length; lia).
    rewrite xorl_app by (rewrite stream_len by auto; lia).
    f_equal; [rewrite xorl_firstn_r by lia; reflexivity|].
    rewrite xorl_firstn_r by lia.
    rewrite <- (xorl_firstn_r b (flat_map (fun j => blk (k + j)%nat) (seq 0 n)) (length b)) by lia.
    rewrite (stream_more (fun j => blk (k + j)%nat) b (length b) ltac:(intros; apply HL) ltac:(nia) n) by lia.
    rewrite xorl_firstn_r by lia. reflexivity.
  Qed.
End Stream.

(** * CTR *)
Definition cval (c : Z * Z) : Z := fst c * 2 ^ 64 + snd c.
Definition cwf (c : Z * Z) : Prop := w64 (fst c) /\ w64 (snd c).
Lemma ctr_inc_wf : forall c, cwf c -> cwf (ctr128_inc c).
Proof.
  intros [a b] [Ha Hb]. unfold cwf, ctr128_inc, w64, u64 in *. cbn [fst snd] in *.
  change (2 ^ 64) with 18446744073709551616 in *.
  destruct (b <? 0xffffffffffffffff) eqn:X; cbn [fst snd].
  - rewrite Z.mod_small by lia. lia.
  - destruct (a <? 0xffffffffffffffff) eqn:Y; cbn [fst snd]; [rewrite Z.mod_small by lia|]; lia.
Qed.
Lemma ctr_inc_val : forall c, cwf c -> cval (ctr128_inc c) = (cval c + 1) mod 2 ^ 128.
Proof.
  intros [a b] [Ha Hb]. unfold cval, ctr128_inc, w64, u64 in *. cbn [fst snd] in *.
  change (2 ^ 64) with 18446744073709551616 in *. change (2 ^ 128) with 340282366920938463463374607431768211456.
  destruct (b <? 0xffffffffffffffff) eqn:X; cbn [fst snd].
  - rewrite !Z.mod_small by lia. lia.
  - assert (b = 18446744073709551615) by lia. subst b.
    destruct (a <? 0xffffffffffffffff) eqn:Y; cbn [fst snd].
    + rewrite !Z.mod_small by lia. lia.
    + assert (a = 18446744073709551615) by lia. subst a. reflexivity.
Qed.
Lemma cval_range : forall c, cwf c -> 0 <= cval c < 2 ^ 128.
Proof.
  intros [a b] [Ha Hb]. unfold cval, w64 in *. cbn [fst snd] in *.
  change (2 ^ 64) with 18446744073709551616 in *. change (2 ^ 128) with 340282366920938463463374607431768211456. lia.
Qed.
Lemma le_bytes_app : forall n m x, le_bytes (n + m) x = le_bytes n x ++ le_bytes m (x / 256 ^ Z.of_nat n).
Proof.
  induction n as [|n IH]; intros m x.
  - cbn [Nat.add le_bytes app]. change (256 ^ Z.of_nat 0) with 1. rewrite Z.div_1_r. reflexivity.
  - cbn [Nat.add le_bytes app]. rewrite IH. f_equal. f_equal. f_equal.
    rewrite Nat2Z.inj_succ, Z.pow_succ_r by lia. rewrite Z.div_div by (try lia; apply Z.pow_pos_nonneg; lia). reflexivity.
Qed.
Lemma ctr_ptr : forall c, cwf c -> ctr128_to_ptr c = be_bytes 16 (cval c).
Proof.
  intros [a b] [Ha Hb]. unfold ctr128_to_ptr, cval, w64 in *. cbn [fst snd] in *.
  unfold be_bytes. rewrite <- rev_app_distr. f_equal.
  change 16%nat with (8 + 8)%nat. rewrite le_bytes_app. change (256 ^ Z.of_nat 8) with (2 ^ 64). f_equal.
  - rewrite <- (le_bytes_mod 8 (a * 2 ^ 64 + b)). change (256 ^ Z.of_nat 8) with (2 ^ 64).
    rewrite Z.add_comm, Z_mod_plus_full, Z.mod_small by exact Hb. reflexivity.
  - rewrite Z.add_comm, Z.div_add, Z.div_small by lia. reflexivity.
Qed.
Lemma ptr_ctr : forall iv, length iv = 16%nat -> bytes iv -> cwf (ptr_to_ctr128 iv) /\ cval (ptr_to_ctr128 iv) = be_val iv.
Proof.
  intros iv Hl Hb. unfold ptr_to_ctr128.
  assert (L1 : length (firstn 8 iv) = 8%nat) by (rewrite firstn_length; lia).
  assert (L2 : length (slice iv 8 8) = 8%nat) by (unfold slice; rewrite firstn_length, skipn_length; lia).
  assert (B1 : bytes (firstn 8 iv)) by (apply bytes_firstn, Hb).
  assert (B2 : bytes (slice iv 8 8)) by (apply bytes_firstn, bytes_skipn, Hb).
  pose proof (be_val_bound _ B1) as R1. pose proof (be_val_bound _ B2) as R2. rewrite L1 in R1. rewrite L2 in R2.
  assert (W : cwf (be_val (firstn 8 iv), be_val (slice iv 8 8))) by (split; [exact R1|exact R2]).
  split; [exact W|]. apply (be_bytes_inj 16).
  - exact (cval_range _ W).
  - pose proof (be_val_bound _ Hb) as R. rewrite Hl in R. exact R.
  - rewrite <- ctr_ptr by exact W. unfold ctr128_to_ptr. cbn [fst snd].
    pose proof (be_bytes_be_val _ B1) as Q1. rewrite L1 in Q1. pose proof (be_bytes_be_val _ B2) as Q2. rewrite L2 in Q2.
    pose proof (be_bytes_be_val _ Hb) as Q3. rewrite Hl in Q3. rewrite Q1, Q2, Q3. unfold slice.
    rewrite (firstn_all2 (skipn 8 iv)) by (rewrite skipn_length; lia). apply firstn_skipn.
Qed.
Section CTRm.
  Variable E : list Z -> list Z.
  Hypothesis LE : forall b, length b = 16%nat -> length (E b) = 16%nat.
  Definition ctr_blk (T : Z) (j : nat) : list Z := E (be_bytes 16 ((T + Z.of_nat j) mod 2 ^ 128)).
  Lemma ctr_blk_len : forall T j, length (ctr_blk T j) = 16%nat.
  Proof. intros. apply LE, length_be_bytes. Qed.
  Definition nblk (n : nat) : nat := ((n + 15) / 16)%nat.
  Lemma P16 : (0 < 16)%nat. Proof. lia. Qed.
  Lemma ctr_loop_spec : forall f c data, cwf c -> (length data <= f)%nat ->
    fst (ctr_loop E f c data) = gloop 16 f (ctr_blk (cval c)) data
    /\ cwf (snd (ctr_loop E f c data))
    /\ cval (snd (ctr_loop E f c data)) = (cval c + Z.of_nat (nblk (length data))) mod 2 ^ 128.
  Proof.
    induction f as [|f IH]; intros c data Hc Hf.
    - destruct data; [|cbn in Hf; lia]. cbn. split; [reflexivity|]. split; [exact Hc|].
      rewrite Z.add_0_r. symmetry. apply Z.mod_small, cval_range, Hc.
    - destruct data as [|x data'].
      { cbn. split; [reflexivity|]. split; [exact Hc|]. rewrite Z.add_0_r. symmetry. apply Z.mod_small, cval_range, Hc. }
      set (data := x :: data') in *.
      assert (Hd : (0 < length data)%nat) by (unfold data; cbn; lia).
      change (ctr_loop E (S f) c data) with
        (let '(r, c') := ctr_loop E f (ctr128_inc c) (skipn (Nat.min (length data) 16) data) in
         (xorl (firstn (Nat.min (length data) 16) data) (firstn (Nat.min (length data) 16) (E (ctr128_to_ptr c))) ++ r, c')).
      change (gloop 16 (S f) (ctr_blk (cval c)) data) with
        (xorl (firstn (Nat.min (length data) 16) data) (firstn (Nat.min (length data) 16) (ctr_blk (cval c) O))
         ++ gloop 16 f (fun j => ctr_blk (cval c) (S j)) (skipn (Nat.min (length data) 16) data)).
      set (todo := Nat.min (length data) 16) in *. clearbody data.
      destruct (IH (ctr128_inc c) (skipn todo data) (ctr_inc_wf c Hc) ltac:(rewrite skipn_length; unfold todo; lia)) as (I1&I2&I3).
      destruct (ctr_loop E f (ctr128_inc c) (skipn todo data)) as [r c']. cbn [fst snd] in *.
      split; [|split; [exact I2|]].
      + f_equal.
        * f_equal. f_equal. unfold ctr_blk. rewrite Z.add_0_r, Z.mod_small by (apply cval_range, Hc).
          rewrite ctr_ptr by exact Hc. reflexivity.
        * rewrite I1. assert (Hs : (length (skipn todo data) <= f)%nat) by (clear I1 I2 I3 IH; rewrite skipn_length; unfold todo; lia).
          rewrite (gloop_spec 16 P16 f (ctr_blk (cval (ctr128_inc c))) _ (ctr_blk_len _) Hs).
          rewrite (gloop_spec 16 P16 f (fun j => ctr_blk (cval c) (S j)) _ (fun j => ctr_blk_len _ (S j)) Hs).
          f_equal. f_equal. apply flat_map_ext. intros j. unfold ctr_blk. f_equal. f_equal.
          rewrite ctr_inc_val by exact Hc. rewrite Zplus_mod_idemp_l. f_equal. clear. lia.
      + rewrite I3, ctr_inc_val by exact Hc. rewrite Zplus_mod_idemp_l, skipn_length. f_equal.
        assert (Q : nblk (length data) = S (nblk (length data - todo))).
        { unfold nblk, todo. destruct (Nat.le_gt_cases 16 (length data)) as [C|C].
          - replace (Nat.min (length data) 16) with 16%nat by lia.
            replace (length data + 15)%nat with ((length data - 16 + 15) + 1 * 16)%nat by lia.
            rewrite Nat.div_add by lia. lia.
          - replace (length data - Nat.min (length data) 16)%nat with 0%nat by lia.
            change ((0 + 15) / 16)%nat with 0%nat. symmetry. apply (Nat.div_unique _ 16 1 (length data - 1)); lia. }
        rewrite Q. lia.
  Qed.
  Lemma ctr_crypt_spec : forall c data, cwf c ->
    fst (mode_ctr_crypt E c data) = CTR E (cval c) data
    /\ cwf (snd (mode_ctr_crypt E c data))
    /\ cval (snd (mode_ctr_crypt E c data)) = (cval c + Z.of_nat (nblk (length data))) mod 2 ^ 128.
  Proof.
    intros c data Hc. unfold mode_ctr_crypt. destruct (ctr_loop_spec (length data) c data Hc (le_n _)) as (A&B&C).
    split; [|split; assumption]. rewrite A. rewrite (gloop_spec 16 P16 _ _ _ (ctr_blk_len _) (le_n _)). reflexivity.
  Qed.
  Lemma CTR_cut : forall T a b k, length a = (k * 16)%nat ->
    CTR E T (a ++ b) = CTR E T a ++ CTR E ((T + Z.of_nat k) mod 2 ^ 128) b.
  Proof.
    intros T a b k Ha. unfold CTR, ctr_stream.
    pose proof (stream_cut 16 P16 (ctr_blk T) a b k (length (a ++ b)) (ctr_blk_len T) Ha (le_n _)) as S.
    unfold ctr_blk in S. rewrite S. f_equal. f_equal. f_equal. apply flat_map_ext. intros j. f_equal. f_equal.
    rewrite Zplus_mod_idemp_l. f_equal. lia.
  Qed.
  Fixpoint ctr_run (c : Z * Z) (chunks : list (list Z)) : list Z :=
    match chunks with
    | [] => []
    | d :: r => let '(o, c) := mode_ctr_crypt E c d in o ++ ctr_run c r
    end.
  Lemma ctr_run_spec : forall chunks lst c, cwf c -> Forall (fun d => exists k, length d = (k * 16)%nat) chunks ->
    ctr_run c (chunks ++ [lst]) = CTR E (cval c) (concat chunks ++ lst).
  Proof.
    induction chunks as [|d ch IH]; intros lst c Hc H; cbn [app ctr_run concat].
    - destruct (ctr_crypt_spec c lst Hc) as (A&_&_). destruct (mode_ctr_crypt E c lst) as [o c']. cbn [fst] in A.
      rewrite app_nil_r. exact A.
    - inversion H as [|? ? [k Hk] H']; subst. destruct (ctr_crypt_spec c d Hc) as (A&B&C).
      destruct (mode_ctr_crypt E c d) as [o c']. cbn [fst snd] in *. rewrite <- app_assoc, (CTR_cut _ _ _ k Hk), A. f_equal.
      rewrite IH by auto. f_equal. rewrite C. f_equal. f_equal. f_equal. unfold nblk. rewrite Hk.
      symmetry. apply (Nat.div_unique _ 16 k 15); lia.
  Qed.
  Lemma CTR_invol : forall T data, CTR E T (CTR E T data) = data.
  Proof.
    intros T data. unfold CTR at 1 2.
    assert (L : forall n, (n <= length (ctr_stream E T n))%nat).
    { intros n. unfold ctr_stream. pose proof (stream_len 16 P16 n (ctr_blk T) (ctr_blk_len T)) as S. unfold ctr_blk in S. lia. }
    assert (L2 : length (xorl data (firstn (length data) (ctr_stream E T (length data)))) = length data).
    { rewrite length_xorl, firstn_length. specialize (L (length data)). lia. }
    rewrite L2. apply xorl_cancel. rewrite firstn_length. specialize (L (length data)). lia.
  Qed.
End CTRm.
