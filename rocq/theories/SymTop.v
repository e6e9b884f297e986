(** The modes over AES after setkey: bridging ModesProof, KwProof to FIPS 197. *)
From Verif Require Import Bytes Words AesSpec AesModel AesProof AesScr ModesSpec ModesModel ModesProof KwProof.

Definition blk (b : list Z) : Prop := length b = 16%nat /\ bytes b.
(** The wrapped cipher's encrypt and decrypt, called in place on one block. *)
Definition enc_of (c : aesctx) (b : list Z) : list Z := aes_encrypt c b b.
Definition dec_of (c : aesctx) (b : list Z) : list Z := aes_decrypt c b b.

(** ** Lengths without assuming bytes *)
Lemma len_sub : forall s, length (aes_sub_bytes s) = length s.
Proof. intros. apply map_length. Qed.
Lemma len_shift : forall s, length s = 16%nat -> length (aes_shift_rows s) = 16%nat.
Proof. intros s H. unfold aes_shift_rows, set. cbv zeta. rewrite !length_upd. exact H. Qed.
Lemma len_mix : forall s, length s = 16%nat -> length (aes_mix_columns s) = 16%nat.
Proof. intros s H. d16 s H. reflexivity. Qed.
Lemma len_ark : forall r s rk nr, length s = 16%nat -> (r <= nr)%nat -> rk_ok nr rk -> length (add_round_key r s rk) = 16%nat.
Proof.
  intros r s rk nr H R [K _]. unfold add_round_key. rewrite length_xorl.
  unfold slice. rewrite firstn_length, skipn_length. lia.
Qed.
Lemma len_rounds : forall nr rk, rk_ok nr rk -> forall k r s, (r + k <= nr)%nat -> length s = 16%nat ->
  length (cipher_rounds k r s rk) = 16%nat.
Proof.
  intros nr rk K. induction k as [|k IH]; intros r s R H; [rewrite cipher_rounds_O|rewrite cipher_rounds_S].
  - apply len_shift. rewrite len_sub. exact H.
  - apply IH; [lia|]. apply (len_ark _ _ _ nr); [|lia|exact K]. apply len_mix, len_shift. rewrite len_sub. exact H.
Qed.
Lemma len_cipher : forall nr c s, rk_ok nr (ae_rk c) -> ae_nr c = nr -> (0 < nr)%nat -> length s = 16%nat ->
  length (aes_cipher c s) = 16%nat.
Proof.
  intros nr c s K E N H. unfold aes_cipher. rewrite E. apply (len_ark _ _ _ nr); [|lia|exact K].
  apply (len_rounds nr); [exact K|lia|]. apply (len_ark _ _ _ nr); [exact H|lia|exact K].
Qed.

Section Key.
  Variables (c0 : aesctx) (key : list Z).
  Hypotheses (Hl : valid_keylen (length key)) (Hb : bytes key).
  Let c := snd (aes_setkey c0 key).
  Lemma enc_of_len : forall b, length b = 16%nat -> length (enc_of c b) = 16%nat.
  Proof.
    intros b L. unfold enc_of. rewrite enc_is by exact L. unfold c.
    destruct (setkey_ok c0 key Hl Hb) as (c'&nk&nr&E&G&Hk&Er&En&E1&E2&W&LW&K&N). rewrite E. cbn [snd].
    apply (len_cipher nr); auto.
  Qed.
  Lemma enc_of_spec : forall b, blk b -> enc_of c b = AES key b.
  Proof. intros b [L B]. apply aes_enc_spec; auto. Qed.
  Lemma dec_of_spec : forall b, blk b -> dec_of c b = AES_inv key b.
  Proof. intros b [L B]. apply aes_dec_spec; auto. Qed.
  Lemma AES_blk : forall b, blk b -> blk (AES key b).
  Proof. intros b [L B]. apply AES_st16; auto. Qed.
  Lemma AES_inv_blk : forall b, blk b -> blk (AES_inv key b).
  Proof. intros b [L B]. apply AES_inv_st16; auto. Qed.

  (** ** CBC *)
  Lemma xor_blk : forall a b, blk a -> blk b -> blk (xorl a b).
  Proof. intros a b [La Ba] [Lb Bb]. split; [rewrite length_xorl; lia|apply bytes_xorl; auto]. Qed.
  Lemma CBC_enc_ext : forall ps iv, Forall blk ps -> blk iv -> CBC_enc (enc_of c) iv ps = CBC_enc (AES key) iv ps.
  Proof.
    induction ps as [|p ps IH]; intros iv HP HI; cbn [CBC_enc]; [reflexivity|]. inversion HP; subst.
    rewrite enc_of_spec by (apply xor_blk; auto). rewrite IH; auto. apply AES_blk, xor_blk; auto.
  Qed.
  Lemma CBC_dec_ext : forall cs iv, Forall blk cs -> CBC_dec (dec_of c) iv cs = CBC_dec (AES_inv key) iv cs.
  Proof.
    induction cs as [|p ps IH]; intros iv HP; cbn [CBC_dec]; [reflexivity|]. inversion HP; subst.
    rewrite dec_of_spec by auto. rewrite IH; auto.
  Qed.
  Lemma CBC_enc_blk : forall ps iv, Forall blk ps -> blk iv -> Forall blk (CBC_enc (AES key) iv ps).
  Proof.
    induction ps as [|p ps IH]; intros iv HP HI; cbn [CBC_enc]; [constructor|]. inversion HP; subst.
    assert (blk (AES key (xorl p iv))) by (apply AES_blk, xor_blk; auto). constructor; auto.
  Qed.
  Lemma CBC_inverse : forall ps iv, Forall blk ps -> blk iv -> CBC_dec (AES_inv key) iv (CBC_enc (AES key) iv ps) = ps.
  Proof.
    induction ps as [|p ps IH]; intros iv HP HI; cbn [CBC_enc CBC_dec]; [reflexivity|]. inversion HP as [|? ? [L B] HP']; subst.
    assert (X : blk (xorl p iv)) by (apply xor_blk; auto; split; auto).
    rewrite IH by (auto using AES_blk). destruct X as [LX BX]. rewrite AES_inv_AES by auto.
    f_equal. apply xorl_cancel. destruct HI. lia.
  Qed.
  Lemma Forall_concat_blk : forall bss, Forall (Forall blk) bss -> Forall blk (concat bss).
  Proof. induction 1; cbn [concat]; [constructor|apply Forall_app; auto]. Qed.
  Lemma blk16 : forall bs, Forall blk bs -> blocks16 bs.
  Proof. intros bs H. eapply Forall_impl; [|exact H]. intros b [L _]. exact L. Qed.
  Lemma blk16s : forall bss, Forall (Forall blk) bss -> Forall blocks16 bss.
  Proof. intros bs H. eapply Forall_impl; [|exact H]. intros b. apply blk16. Qed.
  Lemma cbc_top : forall iv bss, blk iv -> Forall (Forall blk) bss ->
    fst (cbc_enc_run (enc_of c) iv (map (@concat Z) bss)) = concat (CBC_enc (AES key) iv (concat bss)).
  Proof.
    intros iv bss HI HB. rewrite (cbc_enc_run_spec (enc_of c) enc_of_len); [|apply blk16s, HB|apply HI].
    rewrite CBC_enc_ext; auto. apply Forall_concat_blk, HB.
  Qed.
  Lemma cbc_dec_top : forall iv css, Forall (Forall blk) css ->
    fst (cbc_dec_run (dec_of c) iv (map (@concat Z) css)) = concat (CBC_dec (AES_inv key) iv (concat css)).
  Proof.
    intros iv bss HB. rewrite (cbc_dec_run_spec (dec_of c)); [|apply blk16s, HB].
    rewrite CBC_dec_ext; auto. apply Forall_concat_blk, HB.
  Qed.

  (** ** CTR *)
  Lemma CTR_ext : forall T data, CTR (enc_of c) T data = CTR (AES key) T data.
  Proof.
    intros T data. unfold CTR. do 2 apply f_equal. unfold ctr_stream. apply flat_map_ext. intros j.
    apply enc_of_spec. split; [apply length_be_bytes|apply bytes_be_bytes].
  Qed.

  (** ** Key wrap *)
  Lemma kw_blk : forall n A R k, kwst n (A, R) -> (k < n)%nat -> blk (A ++ nth k R []).
  Proof.
    intros n A R k (L&B&S&N) Hk. cbn [fst snd] in *.
    assert (X : length (nth k R []) = 8%nat /\ bytes (nth k R [])).
    { unfold semis in S. rewrite Forall_forall in S. apply S. apply nth_In. lia. }
    destruct X. split; [rewrite app_length; lia|apply bytes_app; auto].
  Qed.
  Lemma be8 : forall x, length (be_bytes 8 x) = 8%nat /\ bytes (be_bytes 8 x).
  Proof. intros. split; [apply length_be_bytes|apply bytes_be_bytes]. Qed.
  Lemma kw_blk' : forall n A R k x, kwst n (A, R) -> (k < n)%nat -> blk (xorl A (be_bytes 8 x) ++ nth k R []).
  Proof.
    intros n A R k x (L&B&S&N) Hk. cbn [fst snd] in *. apply (kw_blk n); auto. destruct (be8 x) as [Lx Bx].
    split; [cbn [fst]; rewrite length_xorl; lia|]. split; [apply bytes_xorl; auto|]. split; auto.
  Qed.
  Lemma fold_ext : forall n (f g : list Z * list (list Z) -> nat * nat -> list Z * list (list Z)),
    (forall s j i, kwst n s -> (1 <= i <= n)%nat -> f s (j, i) = g s (j, i) /\ kwst n (g s (j, i))) ->
    forall l, Forall (fun ji : nat * nat => (1 <= snd ji <= n)%nat) l -> forall s, kwst n s -> fold_left f l s = fold_left g l s.
  Proof.
    intros n f g H. induction l as [|[j i] l IH]; intros HL s K; cbn [fold_left]; [reflexivity|]. inversion HL; subst.
    destruct (H s j i K) as [E K']; auto. rewrite E. apply IH; auto.
  Qed.
  Lemma KW_wrap_ext : forall P, semis P -> KW_wrap (enc_of c) P = KW_wrap (AES key) P.
  Proof.
    intros P S. unfold KW_wrap.
    rewrite (fold_ext (length P) (wrap_step (enc_of c) (length P)) (wrap_step (AES key) (length P)));
      [reflexivity| |apply kw_steps_range|apply kwst_iv, S].
    intros [A R] j i K HI. split.
    - unfold wrap_step. rewrite enc_of_spec; [reflexivity|]. apply (kw_blk (length P)); auto. lia.
    - apply (wrap_inv (AES key) (AES_inv key)); auto; intros.
      + apply AES_st16; auto.
      + apply AES_inv_AES; auto.
  Qed.
  Lemma KW_unwrap_ext : forall A C, length A = 8%nat -> bytes A -> semis C -> KW_unwrap (dec_of c) A C = KW_unwrap (AES_inv key) A C.
  Proof.
    intros A C LA BA S. unfold KW_unwrap. apply (fold_ext (length C)).
    - intros [A' R] j i K HI. split.
      + unfold unwrap_step. rewrite dec_of_spec; [reflexivity|]. apply (kw_blk' (length C)); auto. lia.
      + apply (unwrap_inv (AES key) (AES_inv key)); auto; intros.
        * apply AES_inv_st16; auto.
        * apply AES_AES_inv; auto.
    - apply Forall_rev, kw_steps_range.
    - split; auto.
  Qed.
End Key.
