(** symhmac.c and symkmac.c *)
From Verif Require Import Bytes Words UtilModel UtilProof SpongeSpec Fips202 Sha3Model KeccakBytes Sha3Top Sha2Spec Sha2Model Sha2Proof
  HashIface KmacSpec KmacModel KmacProof MacSpec MacModel MacProof DrbgSpec DrbgModel DrbgProof XofDrngModel XofDrngProof
  AesSpec AesModel AesProof ModesSpec ModesModel ModesProof ChaChaProof SymTop AeadEtmModel AeadEtmProof AeadEtmTop.

(** What the cipher state means. *)
Inductive asym := ACbc (iv : list Z) | ACtr (T : Z) | ACc (c : Z) (nonce : list Z).
Definition aes_ctx (key : list Z) (c : aesctx) : Prop := exists c0, c = snd (aes_setkey c0 key).
Definition sym_abs (key : list Z) (s : sym) (a : asym) : Prop :=
  match s, a with
  | SCbc c iv, ACbc v => aes_ctx key c /\ iv = v /\ blk iv /\ valid_keylen (length key) /\ bytes key
  | SCtr c ctr, ACtr T => aes_ctx key c /\ cwf ctr /\ cval ctr = T /\ valid_keylen (length key) /\ bytes key
  | SCc st, ACc c nonce => st = CC20_state key c nonce /\ 0 <= c < 2 ^ 32
  | _, _ => False
  end.
Definition blocks (p : list Z) : list (list Z) := full_chunks 16 p.
(** The data of one call, as the standards say. *)
Definition ASYM_enc (key : list Z) (a : asym) (p : list Z) : list Z * asym :=
  match a with
  | ACbc iv => let cs := CBC_enc (AES key) iv (blocks p) in (concat cs, ACbc (last cs iv))
  | ACtr T => (CTR (AES key) T p, ACtr ((T + Z.of_nat (nblk (length p))) mod 2 ^ 128))
  | ACc c n => (CHACHA20 key c n p, ACc ((c + Z.of_nat (nblk64 (length p))) mod 2 ^ 32) n)
  end.
Definition ASYM_dec (key : list Z) (a : asym) (p : list Z) : list Z * asym :=
  match a with
  | ACbc iv => (concat (CBC_dec (AES_inv key) iv (blocks p)), ACbc (last (blocks p) iv))
  | _ => ASYM_enc key a p
  end.
Definition okdata (a : asym) (p : list Z) : Prop :=
  match a with ACbc _ => (length p mod 16 = 0)%nat | _ => True end.

Lemma P16' : (0 < 16)%nat. Proof. lia. Qed.
Lemma blocks_ok : forall p, bytes p -> (length p mod 16 = 0)%nat -> concat (blocks p) = p /\ Forall blk (blocks p).
Proof.
  intros p Hb Hl. pose proof (full_chunks_len 16 p P16') as FL. pose proof (bytes_full_chunks 16 p Hb) as FB.
  split.
  - assert (E : tail_chunk 16 p = []) by (apply length_zero_iff_nil; rewrite tail_chunk_length by lia; exact Hl).
    transitivity (concat (full_chunks 16 p) ++ tail_chunk 16 p); [rewrite E, app_nil_r; reflexivity|].
    symmetry. apply chunks_app. lia.
  - rewrite Forall_forall in *. intros b Hi. split; auto.
Qed.
Lemma blocks_concat : forall bs, Forall blk bs -> blocks (concat bs) = bs.
Proof.
  intros bs H. destruct (full_chunks_unique 16 bs [] P16' (blk16 bs H)) as [A _]; [cbn; lia|].
  rewrite app_nil_r in A. exact A.
Qed.
Lemma zt_whole : forall bs o, (0 < bs)%nat -> (length o mod bs = 0)%nat -> zero_trailing bs o = o.
Proof. intros bs o _ E. unfold zero_trailing. rewrite E, Nat.sub_0_r, firstn_all, app_nil_r. reflexivity. Qed.
Lemma zt1 : forall o, zero_trailing 1 o = o.
Proof. intros o. apply zt_whole; [lia|]. apply Nat.mod_1_r. Qed.
Lemma last_blk : forall bs iv, Forall blk bs -> blk iv -> blk (last bs iv).
Proof.
  intros bs iv H HI. destruct bs as [|b bs] using rev_ind; [exact HI|]. rewrite last_last. apply Forall_app in H.
  destruct H as [_ H]. exact (Forall_inv H).
Qed.
Lemma bytes_concat_blk : forall bs, Forall blk bs -> bytes (concat bs).
Proof. intros bs H. apply bytes_concat. eapply Forall_impl; [|exact H]. intros b [_ B]. exact B. Qed.
Lemma length_concat_blk : forall bs, Forall blk bs -> (length (concat bs) mod 16 = 0)%nat.
Proof. intros bs H. rewrite (concat16_len _ (blk16 _ H)), Nat.mul_comm. apply Nat.mod_mul. lia. Qed.
Lemma CBC_enc_count : forall E bs iv, length (CBC_enc E iv bs) = length bs.
Proof. induction bs as [|b bs IH]; intros iv; [reflexivity|]. cbn [CBC_enc length]. rewrite IH. reflexivity. Qed.

Lemma stream_pad : forall p S, (length p <= length S)%nat -> length (xorl p (firstn (length p) S)) = length p.
Proof. intros p S H. rewrite length_xorl; rewrite ?firstn_length; lia. Qed.
Lemma ctr_stream_len : forall E, (forall b, length b = 16%nat -> length (E b) = 16%nat) -> forall T n, (n <= length (ctr_stream E T n))%nat.
Proof.
  intros E HE T n. unfold ctr_stream. pose proof (stream_len 16 P16 n (ctr_blk E T) (ctr_blk_len E HE T)) as S. unfold ctr_blk in S. lia.
Qed.
Lemma cc_stream_len : forall key c nonce n, (n <= length (chacha20_stream key c nonce n))%nat.
Proof.
  intros. unfold chacha20_stream. pose proof (stream_len 64 P64 n (cc_blk key c nonce) (cc_blk_len _ _ _)) as S. unfold cc_blk in S. lia.
Qed.

Section OneCall.
  Variable key : list Z.
  Lemma AES_len16 : valid_keylen (length key) -> bytes key -> forall b, length b = 16%nat -> length (enc_of (snd (aes_setkey (mkAes [] 0 0) key)) b) = 16%nat.
  Proof. intros H1 H2 b Hb. apply enc_of_len; auto. Qed.
  Lemma ASYM_len : forall s a p, sym_abs key s a -> bytes p -> okdata a p ->
    length (fst (ASYM_enc key a p)) = length p /\ bytes (fst (ASYM_enc key a p)).
  Proof.
    intros s a p HA Hb Ho. destruct s as [c iv|c ctr|st], a as [v|T|cc n]; try (destruct HA; fail); cbn [ASYM_enc fst].
    - destruct HA as (_ & <- & Bi & Kl & Kb). cbn [okdata] in Ho. destruct (blocks_ok p Hb Ho) as [C F].
      pose proof (CBC_enc_blk key Kl Kb (blocks p) iv F Bi) as F2.
      split; [|apply bytes_concat_blk, F2]. rewrite (concat16_len _ (blk16 _ F2)), CBC_enc_count.
      rewrite <- (concat16_len _ (blk16 _ F)), C. reflexivity.
    - destruct HA as (_ & Hc & Ec & Kl & Kb).
      set (c0 := mkAes [] 0 0). rewrite <- (CTR_ext c0 key Kl Kb). unfold CTR. split.
      + apply stream_pad, ctr_stream_len, enc_of_len; auto.
      + apply bytes_xorl; auto. apply bytes_firstn. unfold ctr_stream. apply bytes_flat. intros i.
        rewrite (enc_of_spec c0 key Kl Kb) by (split; [apply length_be_bytes|apply bytes_be_bytes]).
        apply AES_blk; auto. split; [apply length_be_bytes|apply bytes_be_bytes].
    - unfold CHACHA20. split.
      + apply stream_pad, cc_stream_len.
      + apply bytes_xorl; auto. apply bytes_firstn. unfold chacha20_stream. apply bytes_flat. intros i.
        unfold chacha20_block. apply bytes_flat. intros j. apply bytes_le_bytes.
  Qed.
  Lemma sy_enc_ok : forall s a p, sym_abs key s a -> bytes p -> okdata a p ->
    exists s', sy_enc s p = (fst (ASYM_enc key a p), s') /\ sym_abs key s' (snd (ASYM_enc key a p)).
  Proof.
    intros s a p HA Hb Ho. pose proof (ASYM_len s a p HA Hb Ho) as [HL _].
    destruct s as [c iv|c ctr|st], a as [v|T|cc n]; try (destruct HA; fail); unfold sy_enc; cbn [sym_enc ASYM_enc fst snd sym_bs] in *.
    - destruct HA as ([c0 ->] & <- & Bi & Kl & Kb). cbn [okdata] in Ho. destruct (blocks_ok p Hb Ho) as [C F].
      change (enc1 (snd (aes_setkey c0 key))) with (enc_of (snd (aes_setkey c0 key))).
      pose proof (cbc_encrypt_spec (enc_of (snd (aes_setkey c0 key))) (enc_of_len c0 key Kl Kb) iv (blocks p) p (blk16 _ F) (proj1 Bi)) as X.
      rewrite C in X. specialize (X eq_refl). rewrite (CBC_enc_ext c0 key Kl Kb (blocks p) iv F Bi) in X. rewrite X.
      eexists. split.
      + rewrite zt_whole; [reflexivity|lia|]. rewrite HL. exact Ho.
      + split; [exists c0; reflexivity|]. split; [reflexivity|]. split; [|auto]. apply last_blk; auto. apply CBC_enc_blk; auto.
    - destruct HA as ([c0 ->] & Hc & Ec & Kl & Kb).
      change (enc1 (snd (aes_setkey c0 key))) with (enc_of (snd (aes_setkey c0 key))).
      destruct (ctr_crypt_spec (enc_of (snd (aes_setkey c0 key))) (enc_of_len c0 key Kl Kb) ctr p Hc) as (X1 & X2 & X3).
      rewrite (CTR_ext c0 key Kl Kb), Ec in X1. rewrite Ec in X3.
      destruct (mode_ctr_crypt _ ctr p) as [o v]. cbn [fst snd] in *. subst o. rewrite zt1.
      eexists. split; [reflexivity|]. split; [exists c0; reflexivity|]. auto.
    - destruct HA as [-> H0]. rewrite cc20_crypt_spec by exact H0. rewrite zt1. eexists. split; [reflexivity|].
      split; [reflexivity|]. apply Z.mod_pos_bound. lia.
  Qed.
  Lemma CBC_dec_len : forall D cs iv, (forall b, blk b -> blk (D b)) -> Forall blk cs -> blk iv -> Forall blk (CBC_dec D iv cs).
  Proof.
    intros D. induction cs as [|c cs IH]; intros iv HD HF HI; [constructor|]. cbn [CBC_dec].
    pose proof (Forall_inv HF) as Hc. constructor; [|apply IH; auto; exact (Forall_inv_tail HF)].
    apply xor_blk; auto.
  Qed.
  Lemma sy_dec_ok : forall s a p, sym_abs key s a -> bytes p -> okdata a p ->
    exists s', sy_dec s p = (fst (ASYM_dec key a p), s') /\ sym_abs key s' (snd (ASYM_dec key a p)).
  Proof.
    intros s a p HA Hb Ho. destruct s as [c iv|c ctr|st], a as [v|T|cc n]; try (destruct HA; fail).
    - destruct HA as ([c0 ->] & <- & Bi & Kl & Kb). cbn [okdata] in Ho. destruct (blocks_ok p Hb Ho) as [C F].
      unfold sy_dec. cbn [sym_dec ASYM_dec fst snd sym_bs].
      change (dec1 (snd (aes_setkey c0 key))) with (dec_of (snd (aes_setkey c0 key))).
      pose proof (cbc_decrypt_spec (dec_of (snd (aes_setkey c0 key))) iv (blocks p) p (blk16 _ F)) as X.
      rewrite C in X. specialize (X eq_refl). rewrite (CBC_dec_ext c0 key Kl Kb (blocks p) iv F) in X. rewrite X.
      eexists. split.
      + rewrite zt_whole; [reflexivity|lia|]. apply length_concat_blk. apply CBC_dec_len; auto.
        intros b Hblk. apply AES_inv_blk; auto.
      + split; [exists c0; reflexivity|]. split; [reflexivity|]. split; [|auto]. apply last_blk; auto.
    - exact (sy_enc_ok (SCtr c ctr) (ACtr T) p HA Hb Ho).
    - exact (sy_enc_ok (SCc st) (ACc cc n) p HA Hb Ho).
  Qed.
  Lemma ASYM_inverse : forall s a p, sym_abs key s a -> bytes p -> okdata a p ->
    ASYM_dec key a (fst (ASYM_enc key a p)) = (p, snd (ASYM_enc key a p)).
  Proof.
    intros s a p HA Hb Ho. pose proof (ASYM_len s a p HA Hb Ho) as [HL _].
    destruct s as [c iv|c ctr|st], a as [v|T|cc n]; try (destruct HA; fail); cbn [ASYM_dec ASYM_enc fst snd] in *.
    - destruct HA as (_ & <- & Bi & Kl & Kb). cbn [okdata] in Ho. destruct (blocks_ok p Hb Ho) as [C F].
      rewrite (blocks_concat _ (CBC_enc_blk key Kl Kb (blocks p) iv F Bi)).
      rewrite (CBC_inverse key Kl Kb _ _ F Bi), C. reflexivity.
    - destruct HA as (_ & Hc & Ec & Kl & Kb). rewrite HL. apply f_equal2; [|reflexivity].
      rewrite <- !(CTR_ext (mkAes [] 0 0) key Kl Kb). apply CTR_invol. apply enc_of_len; auto.
    - rewrite HL, CHACHA20_invol. reflexivity.
  Qed.
  Lemma okdata_next : forall a p q, okdata (snd (ASYM_enc key a p)) q <-> okdata a q.
  Proof. intros [v|T|cc n] p q; cbn [ASYM_enc snd okdata]; tauto. Qed.
End OneCall.

Definition okpieces (a : asym) (ps _ : list (list Z)) : Prop := Forall (okdata a) ps.

(** Same cutting: any cipher. *)
Section Same.
  Variable key : list Z.
  Lemma sy_run_ok : forall ps s a, sym_abs key s a -> Forall bytes ps -> okpieces a ps ps ->
    Forall bytes (fst (crun _ sy_enc s ps)) /\ map (@length Z) (fst (crun _ sy_enc s ps)) = map (@length Z) ps /\
    forall s2, sym_abs key s2 a -> fst (crun _ sy_dec s2 (fst (crun _ sy_enc s ps))) = ps.
  Proof.
    induction ps as [|p ps IH]; intros s a HA Hb Ho; [repeat split; constructor|].
    pose proof (Forall_inv Hb) as Hp. pose proof (Forall_inv Ho) as Hop. cbn [crun].
    destruct (sy_enc_ok key s a p HA Hp Hop) as (s' & E & A'). rewrite E.
    destruct (ASYM_len key s a p HA Hp Hop) as [L B].
    pose proof (ASYM_inverse key s a p HA Hp Hop) as Inv.
    destruct (IH s' _ A' (Forall_inv_tail Hb)) as (I1 & I2 & I3).
    { unfold okpieces in *. apply Forall_inv_tail in Ho. eapply Forall_impl; [|exact Ho]. intros q Hq. apply okdata_next, Hq. }
    destruct (crun _ sy_enc s' ps) as [os c2]. cbn [fst map crun] in *. split; [constructor; auto|].
    split; [rewrite L, I2; reflexivity|]. intros s2 A2.
    destruct (sy_dec_ok key s2 a (fst (ASYM_enc key a p)) A2 B) as (s2' & E2 & A2').
    { destruct a; cbn [okdata] in *; auto. rewrite L. exact Hop. }
    rewrite E2. rewrite Inv in A2' |- *. cbn [fst snd] in A2' |- *. specialize (I3 s2' A2').
    destruct (crun _ sy_dec s2' os) as [qs c3]. cbn [fst] in *. rewrite I3. reflexivity.
  Qed.
End Same.

(** CBC: any cutting into whole blocks. *)
Section CbcSplit.
  Variable key : list Z.
  Hypotheses (Kl : valid_keylen (length key)) (Kb : bytes key).
  Definition wholes (ps : list (list Z)) : Prop := Forall (fun p => (length p mod 16 = 0)%nat) ps.
  Lemma wholes_concat : forall ps, wholes ps -> (length (concat ps) mod 16 = 0)%nat.
  Proof.
    induction ps as [|p ps IH]; intros H; [reflexivity|]. cbn [concat]. rewrite app_length, Nat.add_mod by lia.
    rewrite (Forall_inv H), (IH (Forall_inv_tail H)). reflexivity.
  Qed.
  Lemma blocks_app : forall p q, bytes p -> (length p mod 16 = 0)%nat -> blocks (p ++ q) = blocks p ++ blocks q.
  Proof.
    intros p q Hb Hl. destruct (blocks_ok p Hb Hl) as [C F]. unfold blocks at 1.
    destruct (full_chunks_app 16 p q P16') as [E _]. rewrite E.
    destruct (full_chunks_unique 16 (blocks p) [] P16' (blk16 _ F)) as [_ T]; [cbn; lia|].
    rewrite app_nil_r, C in T. rewrite T. reflexivity.
  Qed.
  Lemma cbc_enc_crun : forall ps s iv, sym_abs key s (ACbc iv) -> Forall bytes ps -> wholes ps ->
    concat (fst (crun _ sy_enc s ps)) = concat (CBC_enc (AES key) iv (blocks (concat ps))).
  Proof.
    induction ps as [|p ps IH]; intros s iv HA Hb Ho; [reflexivity|].
    pose proof (Forall_inv Hb) as Hp. pose proof (Forall_inv Ho) as Hop. cbn [crun concat].
    destruct (sy_enc_ok key s _ p HA Hp Hop) as (s' & E & A'). rewrite E. cbn [ASYM_enc snd fst] in *.
    specialize (IH s' _ A' (Forall_inv_tail Hb) (Forall_inv_tail Ho)).
    destruct (crun _ sy_enc s' ps) as [os c2]. cbn [fst concat] in *. rewrite IH, blocks_app, CBC_enc_app, concat_app by auto.
    reflexivity.
  Qed.
  Lemma cbc_dec_crun : forall ps s iv, sym_abs key s (ACbc iv) -> Forall bytes ps -> wholes ps ->
    concat (fst (crun _ sy_dec s ps)) = concat (CBC_dec (AES_inv key) iv (blocks (concat ps))).
  Proof.
    induction ps as [|p ps IH]; intros s iv HA Hb Ho; [reflexivity|].
    pose proof (Forall_inv Hb) as Hp. pose proof (Forall_inv Ho) as Hop. cbn [crun concat].
    destruct (sy_dec_ok key s _ p HA Hp Hop) as (s' & E & A'). rewrite E. cbn [ASYM_dec snd fst] in *.
    specialize (IH s' _ A' (Forall_inv_tail Hb) (Forall_inv_tail Ho)).
    destruct (crun _ sy_dec s' ps) as [os c2]. cbn [fst concat] in *. rewrite IH, blocks_app, CBC_dec_app, concat_app by auto.
    reflexivity.
  Qed.
End CbcSplit.
Definition okcut (a : asym) (cs cs' : list (list Z)) : Prop :=
  match a with ACbc _ => wholes cs' | _ => cs = cs' end.

Section SymGen.
  Variables (key : list Z) (a : asym) (s s2 : sym).
  Hypotheses (HA : sym_abs key s a) (HA2 : sym_abs key s2 a).
  Variable lim : Z.
  Lemma sym_HE : forall ps, Forall bytes ps -> okpieces a ps ps -> Z.of_nat (length (concat ps)) < lim ->
    Forall bytes (fst (crun _ sy_enc s ps)) /\ map (@length Z) (fst (crun _ sy_enc s ps)) = map (@length Z) ps.
  Proof. intros ps Hb Ho _. destruct (sy_run_ok key ps s a HA Hb Ho) as (I1 & I2 & _). auto. Qed.
  Lemma sym_HD : forall ps cs, Forall bytes ps -> okpieces a ps ps -> Z.of_nat (length (concat ps)) < lim ->
    concat cs = concat (fst (crun _ sy_enc s ps)) -> okcut a (fst (crun _ sy_enc s ps)) cs ->
    concat (fst (crun _ sy_dec s2 cs)) = concat ps.
  Proof.
    intros ps cs Hb Ho _ Ec Hc. destruct (sy_run_ok key ps s a HA Hb Ho) as (I1 & I2 & I3).
    destruct a as [iv|T|cc n]; cbn [okcut] in Hc.
    - assert (Bc : Forall bytes cs) by (apply Forall_bytes_concat; rewrite Ec; apply bytes_concat, I1).
      rewrite (cbc_dec_crun key cs s2 iv HA2 Bc Hc), Ec.
      unfold okpieces in Ho. cbn [okdata] in Ho. fold (wholes ps) in Ho.
      rewrite (cbc_enc_crun key ps s iv HA Hb Ho).
      destruct s as [c v|?|?]; try (destruct HA; fail). destruct HA as (_ & <- & Bi & Kl & Kb).
      destruct (blocks_ok (concat ps)) as [C F]; [apply bytes_concat, Hb|apply wholes_concat, Ho|].
      rewrite (blocks_concat _ (CBC_enc_blk key Kl Kb _ v F Bi)), (CBC_inverse key Kl Kb _ _ F Bi). exact C.
    - subst cs. rewrite (I3 s2 HA2). reflexivity.
    - subst cs. rewrite (I3 s2 HA2). reflexivity.
  Qed.
End SymGen.

(** ** Setting up the cipher *)
Definition sym_memory (s : sym) : Prop := match s with SCc st => length st = 16%nat | _ => True end.
Definition sym_start (s : sym) (iv : list Z) : asym :=
  match s with SCbc _ _ => ACbc iv | SCtr _ _ => ACtr (be_val iv) | SCc _ => ACc 1 iv end.
Definition sym_ivlen (s : sym) : nat := match s with SCc _ => 12 | _ => 16 end.
Lemma sym_setup_ok : forall s key iv, sym_memory s -> bytes key -> length key = 32%nat -> bytes iv ->
  (length iv = sym_ivlen s -> exists s', sym_setup s key iv = Some s' /\ sym_abs key s' (sym_start s iv)) /\
  (length iv <> sym_ivlen s -> sym_setup s key iv = None).
Proof.
  intros s key iv Hm Hk Lk Hi. assert (Kl : valid_keylen (length key)) by (unfold valid_keylen; lia).
  destruct s as [c v|c v|st]; cbn [sym_setup sym_start sym_ivlen sym_memory] in *.
  - unfold mode_cbc_setiv. destruct (Nat.eqb_spec (length iv) 16); split; intros; try congruence.
    eexists. split; [reflexivity|]. split; [exists c; reflexivity|]. repeat split; auto.
  - unfold mode_ctr_setiv. destruct (Nat.eqb_spec (length iv) 16); split; intros; try congruence.
    destruct (ptr_ctr iv e Hi) as [P1 P2].
    eexists. split; [reflexivity|]. split; [exists c; reflexivity|]. auto.
  - destruct (cc20_setkey (cc20_init st) key) as [st1|] eqn:E1.
    2:{ unfold cc20_setkey in E1. rewrite Lk in E1. discriminate. }
    destruct (cc20_setiv st1 iv) as [st2|] eqn:E2.
    + split; intros.
      * exists (SCc st2). split; [reflexivity|]. split; [|lia]. exact (cc20_setup st key iv st1 st2 Hm E1 E2).
      * unfold cc20_setiv in E2. rewrite (proj2 (Nat.eqb_neq _ _) H) in E2. discriminate.
    + split; intros; [|reflexivity]. unfold cc20_setiv in E2. rewrite H in E2. discriminate.
Qed.

(** ** symkmac.c *)
Definition kh_keys (key : list Z) : list Z := KMACXOF 64 key [] 0 64 [].
Section KH.
  Variables (key iv : list Z).
  Hypotheses (Bk : bytes key) (Bi : bytes iv) (Lk : Z.of_nat (length key) < 2 ^ 60).
  Let K := kh_keys key.
  Definition kh_ready (a : asym) (s : sym * kmctx) : Prop :=
    sym_abs (firstn 32 K) (fst s) a /\ exists c, hc_alg (km_h c) = alg_cshake256 /\ snd s = kmac_init permB c (skipn 32 K) [].
  Lemma kh_keys_ok : length K = 64%nat /\ bytes K.
  Proof.
    destruct (KMACXOF_ok key [] 0 64 [] Bk (Forall_nil _) (Forall_nil _) ltac:(lia) ltac:(cbn [length]; lia)) as [A B].
    exact (conj B A).
  Qed.
  Lemma kh_derive_ok : forall c, hc_alg (km_h c) = alg_cshake256 -> kh_derive c key = K.
  Proof.
    intros c E. unfold kh_derive, K, kh_keys.
    assert (Fn : Forall bytes [[]]) by (repeat constructor).
    pose proof (km_tag_ok (mkKM (km_h c) None false) key [] [[]] 64 E Bk (Forall_nil _) Fn Lk ltac:(cbn [length]; lia)
      ltac:(cbn [concat app length]; lia) ltac:(lia)) as X.
    cbn [fold_left concat app] in X. exact X.
  Qed.
  Lemma kh_setkey_ok : forall s, sym_memory (fst s) -> hc_alg (km_h (snd s)) = alg_cshake256 ->
    (length iv = sym_ivlen (fst s) -> exists s', kh_setkey s key iv = (0, s') /\ kh_ready (sym_start (fst s) iv) s') /\
    (length iv <> sym_ivlen (fst s) -> fst (kh_setkey s key iv) = -22).
  Proof.
    intros [c m] Hm Ha. cbn [fst snd] in *. unfold kh_setkey. cbn [fst snd]. rewrite kh_derive_ok by exact Ha.
    destruct kh_keys_ok as [L B].
    destruct (sym_setup_ok c (firstn 32 K) iv Hm) as [S1 S2]; [apply bytes_firstn, B|rewrite firstn_length; lia|exact Bi|].
    split; intros Hl.
    - destruct (S1 Hl) as (s' & -> & A). eexists. split; [reflexivity|]. split; [exact A|]. exists m. auto.
    - rewrite (S2 Hl). reflexivity.
  Qed.
  Let okt (n : nat) : Prop := (4 <= n <= 128)%nat.
  Definition kh_mac (x : list Z) (n : nat) : list Z := KMACXOF 64 (skipn 32 K) x 0 n [].
  Lemma kh_authkey : bytes (skipn 32 K) /\ length (skipn 32 K) = 32%nat.
  Proof. destruct kh_keys_ok as [L B]. split; [apply bytes_skipn, B|rewrite skipn_length; lia]. Qed.
  Lemma kh_HT : forall a s, kh_ready a s -> forall xs n, Forall bytes xs -> Z.of_nat (length (concat xs)) < 2 ^ 61 -> okt n ->
    fst (kh_tag (fold_left (kmac_update permB) xs (snd s)) n) = kh_mac (concat xs) n.
  Proof.
    intros a s (_ & c & Ea & Es) xs n Hx Hl [Hn _]. destruct kh_authkey as [B1 B2]. rewrite Es. unfold kh_tag, kh_mac.
    apply km_tag_ok; auto; try lia; [constructor|cbn [length]; lia].
  Qed.
  Lemma kh_HTn : forall x n, bytes x -> okt n -> length (kh_mac x n) = n /\ bytes (kh_mac x n).
  Proof.
    intros x n Hx _. destruct kh_authkey as [B1 B2]. unfold kh_mac.
    destruct (KMACXOF_ok (skipn 32 K) x 0 n [] B1 Hx (Forall_nil _)) as [R1 R2]; [lia|cbn; lia|].
    split; assumption.
  Qed.
  Lemma kh_capok : forall n, okt n -> kh_cap n = Some n.
  Proof. intros n Hn. unfold kh_cap. rewrite Nat.min_l by (unfold okt in Hn; lia). reflexivity. Qed.
  Lemma kh_roundtrip : forall a s1 s2, kh_ready a s1 -> kh_ready a s2 ->
    aead_roundtrip okt (2 ^ 61) (okpieces a) (okcut a) (kh_enc_stream s1) (fun st p1 p2 => kh_dec_stream st p1 p2 s2).
  Proof.
    intros a s1 s2 R1 R2. pose proof (kh_HT a s1 R1) as T1. pose proof (kh_HT a s2 R2) as T2.
    destruct s1 as [c1 m1], s2 as [c2 m2], R1 as [A1 _], R2 as [A2 _]. cbn [fst snd] in *.
    exact (gen_roundtrip _ _ _ _ _ _ _ _ _ okt (2 ^ 61) T1 kh_HTn kh_capok m2 c1 c2 T2 _ _ _ (Z.le_refl _)
      (sym_HE (firstn 32 K) a c1 A1 (2 ^ 61)) (sym_HD (firstn 32 K) a c1 c2 A1 A2 (2 ^ 61))).
  Qed.
  Lemma kh_verify : forall a s, kh_ready a s -> aead_verify kh_mac okt (2 ^ 61) (fun st p1 p2 => kh_dec_stream st p1 p2 s).
  Proof.
    intros a s R. pose proof (kh_HT a s R) as T1. destruct s as [c m]. cbn [snd] in T1.
    exact (gen_verify _ _ sy_enc _ _ _ _ m _ okt (2 ^ 61) kh_HTn kh_capok _ c c T1 (2 ^ 61) (Z.le_refl _)).
  Qed.
  Lemma kh_tag_ok : forall a s, kh_ready a s -> aead_tag kh_mac okt (2 ^ 61) (okpieces a) (kh_enc_stream s).
  Proof.
    intros a s R1. pose proof (kh_HT a s R1) as T1. destruct s as [c m], R1 as [A1 _]. cbn [fst snd] in *.
    exact (gen_tag _ _ _ _ _ _ _ okt (2 ^ 61) T1 kh_HTn _ _ _ (Z.le_refl _) (sym_HE (firstn 32 K) a c A1 (2 ^ 61))).
  Qed.
End KH.

(** ** symhmac.c *)
Definition sh_keys (key : list Z) : list Z := HKDF_Expand SHA512 128 (HKDF_Extract SHA512 128 64 None key) [] 64.
Lemma sh_keys_eq : forall key, HKDF_Expand SHA512 128 (HKDF_Extract SHA512 128 64 None key) [] 64 = sh_keys key.
Proof. unfold sh_keys. reflexivity. Qed.
Section SH.
  Variable h : hashops.
  Variable wf : HashIface.hctx h -> Prop.
  Variable H : list Z -> list Z.
  Variable maxlen : Z.
  Hypothesis OK : hash_ok h wf H maxlen.
  Variables (key iv : list Z).
  Hypotheses (Bk : bytes key) (Bi : bytes iv) (Nk : key <> []) (Lk : Z.of_nat (length key) < 2 ^ 60).
  Let K := sh_keys key.
  Definition sh_ready (a : asym) (s : sym * hmctx h) : Prop :=
    sym_abs (firstn 32 K) (fst s) a /\ exists c, wf (hm_h h c) /\ snd s = hmac_init h c (skipn 32 K).
  Lemma prk_ok : bytes (HKDF_Extract SHA512 128 64 None key).
  Proof.
    unfold HKDF_Extract. apply (MAC_bytes sha512_ops (swf cfg512) SHA512 (2 ^ 61) sha512_ops_ok); [apply bytes_zeros|exact Bk].
  Qed.
  Lemma expand_one : forall prk, HKDF_Expand SHA512 128 prk [] 64 = HMAC SHA512 128 prk [1].
  Proof.
    intros prk. unfold HKDF_Expand, hkdf_stream. change (seq 1 255) with (1%nat :: seq 2 254). cbn [flat_map].
    change (hkdf_T SHA512 128 prk [] 1) with (HMAC SHA512 128 prk [1]).
    pose proof (MAC_length sha512_ops (swf cfg512) SHA512 (2 ^ 61) sha512_ops_ok prk [1]) as L.
    change (h_bs sha512_ops) with 128%nat in L. change (h_ds sha512_ops) with 64%nat in L.
    rewrite firstn_app, L, Nat.sub_diag, firstn_all2 by lia. cbn [firstn]. apply app_nil_r.
  Qed.
  Lemma sh_keys_ok : length K = 64%nat /\ bytes K.
  Proof.
    unfold K, sh_keys. rewrite expand_one. split.
    - exact (MAC_length sha512_ops (swf cfg512) SHA512 (2 ^ 61) sha512_ops_ok _ _).
    - apply (MAC_bytes sha512_ops (swf cfg512) SHA512 (2 ^ 61) sha512_ops_ok); [exact prk_ok|].
      constructor; [unfold byte; lia|constructor].
  Qed.
  Lemma sh_setkey_ok : forall hm s, swf cfg512 (hm_h sha512_ops hm) -> sym_memory (fst s) -> wf (hm_h h (snd s)) ->
    (length iv = sym_ivlen (fst s) -> exists s', sh_setkey h hm s key iv = (0, s') /\ sh_ready (sym_start (fst s) iv) s') /\
    (length iv <> sym_ivlen (fst s) -> fst (sh_setkey h hm s key iv) = -22).
  Proof.
    intros hm [c m] Hw Hm Ha. cbn [fst snd] in *. unfold sh_setkey. cbn [fst snd].
    pose proof (hkdf_ok sha512_ops (swf cfg512) SHA512 (2 ^ 61) sha512_ops_ok hm key None None 64 Hw (conj Bk Lk) Nk) as X.
    change (ob None) with (@nil Z) in X. assert (G : good []) by (split; [constructor|cbn [length]; lia]).
    specialize (X G G). rewrite X; [|change (h_ds sha512_ops) with 64%nat; lia]. clear X.
    change (h_bs sha512_ops) with 128%nat. change (h_ds sha512_ops) with 64%nat. rewrite sh_keys_eq.
    assert (EK : sh_keys key = K) by reflexivity. rewrite EK.
    change (negb (0 =? 0)) with false. cbv iota.
    destruct sh_keys_ok as [L B].
    destruct (sym_setup_ok c (firstn 32 K) iv Hm) as [S1 S2]; [apply bytes_firstn, B|rewrite firstn_length; lia|exact Bi|].
    split; intros Hl.
    - destruct (S1 Hl) as (s' & -> & A). eexists. split; [reflexivity|]. split; [exact A|]. exists m. auto.
    - rewrite (S2 Hl). reflexivity.
  Qed.
  Let okt (n : nat) : Prop := (n <= h_ds h)%nat.
  Definition sh_mac (x : list Z) (n : nat) : list Z := firstn n (HMAC H (h_bs h) (skipn 32 K) x).
  Lemma sh_authkey : bytes (skipn 32 K) /\ length (skipn 32 K) = 32%nat.
  Proof. destruct sh_keys_ok as [L B]. split; [apply bytes_skipn, B|rewrite skipn_length; lia]. Qed.
  Lemma sh_HT : forall a s, sh_ready a s -> forall xs n, Forall bytes xs -> Z.of_nat (length (concat xs)) < 2 ^ 60 -> okt n ->
    fst (sh_tag h (fold_left (hmac_update h) xs (snd s)) n) = sh_mac (concat xs) n.
  Proof.
    intros a s (_ & c & Ea & Es) xs n Hx Hl Hn. destruct sh_authkey as [B1 B2]. rewrite Es. unfold sh_mac.
    apply (hmtag_ok h wf H maxlen OK); auto; lia.
  Qed.
  Lemma sh_HTn : forall x n, bytes x -> okt n -> length (sh_mac x n) = n /\ bytes (sh_mac x n).
  Proof. intros x n Hx Hn. apply (hm_trunc h wf H maxlen OK); auto. apply sh_authkey. Qed.
  Lemma sh_capok : forall n, okt n -> sh_cap h n = Some n.
  Proof. intros n Hn. unfold sh_cap. rewrite Nat.min_l by exact Hn. reflexivity. Qed.
  Lemma sh_roundtrip : forall a s1 s2, sh_ready a s1 -> sh_ready a s2 ->
    aead_roundtrip okt (2 ^ 60) (okpieces a) (okcut a) (sh_enc_stream h s1) (fun st p1 p2 => sh_dec_stream h st p1 p2 s2).
  Proof.
    intros a s1 s2 R1 R2. pose proof (sh_HT a s1 R1) as T1. pose proof (sh_HT a s2 R2) as T2.
    destruct s1 as [c1 m1], s2 as [c2 m2], R1 as [A1 _], R2 as [A2 _]. cbn [fst snd] in *.
    exact (gen_roundtrip _ _ _ _ _ _ _ _ _ okt (2 ^ 60) T1 sh_HTn sh_capok m2 c1 c2 T2 _ _ _ (Z.le_refl _)
      (sym_HE (firstn 32 K) a c1 A1 (2 ^ 60)) (sym_HD (firstn 32 K) a c1 c2 A1 A2 (2 ^ 60))).
  Qed.
  Lemma sh_verify : forall a s, sh_ready a s -> aead_verify sh_mac okt (2 ^ 60) (fun st p1 p2 => sh_dec_stream h st p1 p2 s).
  Proof.
    intros a s R. pose proof (sh_HT a s R) as T1. destruct s as [c m]. cbn [snd] in T1.
    exact (gen_verify _ _ sy_enc _ _ _ _ m _ okt (2 ^ 60) sh_HTn sh_capok _ c c T1 (2 ^ 60) (Z.le_refl _)).
  Qed.
  Lemma sh_tag_ok : forall a s, sh_ready a s -> aead_tag sh_mac okt (2 ^ 60) (okpieces a) (sh_enc_stream h s).
  Proof.
    intros a s R1. pose proof (sh_HT a s R1) as T1. destruct s as [c m], R1 as [A1 _]. cbn [fst snd] in *.
    exact (gen_tag _ _ _ _ _ _ _ okt (2 ^ 60) T1 sh_HTn _ _ _ (Z.le_refl _) (sym_HE (firstn 32 K) a c A1 (2 ^ 60))).
  Qed.
End SH.
