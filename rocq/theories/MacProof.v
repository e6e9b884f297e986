(** HMAC, HKDF, SP 800-108, PBKDF2, HOTP code = their specifications, for every hash satisfying [hash_ok]. *)
From Verif Require Import Bytes Words ZUtil HashIface MacSpec MacModel.

Lemma skipn_skipn : forall n m (l : list Z), skipn n (skipn m l) = skipn (n + m) l.
Proof.
  intros n m. revert n. induction m as [|m IH]; intros n l.
  - rewrite Nat.add_0_r. reflexivity.
  - rewrite Nat.add_succ_r. destruct l; [cbn [skipn]; rewrite skipn_nil; reflexivity|apply IH].
Qed.

Lemma slice_app : forall (l : list Z) p a b, slice l p a ++ slice l (p + a) b = slice l p (a + b).
Proof.
  intros l p a b. unfold slice. replace (p + a)%nat with (a + p)%nat by lia. rewrite <- skipn_skipn.
  set (m := skipn p l). rewrite <- (firstn_skipn a (firstn (a + b) m)).
  rewrite firstn_firstn, Nat.min_l by lia. f_equal. rewrite skipn_firstn_comm. f_equal. lia.
Qed.

(** Producing blocks B(i), B(i+1), ... until [dlen] bytes are written. *)
Section Blocks.
  Variable B : nat -> list Z.
  Variable h : nat.
  Hypothesis Hh : (0 < h)%nat.
  Hypothesis HB : forall i, length (B i) = h.
  Fixpoint blocks (fuel dlen i : nat) : list Z :=
    match fuel with
    | O => []
    | S f => if (dlen =? 0)%nat then [] else if (dlen <? h)%nat then firstn dlen (B i)
             else B i ++ blocks f (dlen - h) (S i)
    end.
  Lemma blocks_ok : forall fuel dlen i N, (dlen <= fuel)%nat -> (dlen <= h * N)%nat ->
    blocks fuel dlen i = firstn dlen (flat_map B (seq i N)).
  Proof.
    induction fuel as [|f IH]; intros dlen i N Hf HN.
    - replace dlen with 0%nat by lia. reflexivity.
    - cbn [blocks]. destruct (Nat.eqb_spec dlen 0) as [->|Hd]; [reflexivity|].
      destruct N as [|N]; [lia|]. cbn [seq flat_map].
      destruct (Nat.ltb_spec dlen h).
      + rewrite firstn_app, HB. replace (dlen - h)%nat with 0%nat by lia. rewrite firstn_O, app_nil_r. reflexivity.
      + rewrite (IH _ _ N) by lia. rewrite firstn_app, HB, (firstn_all2 (B i)) by (rewrite HB; lia). reflexivity.
  Qed.
  Lemma flat_blocks_length : forall N i, length (flat_map B (seq i N)) = (h * N)%nat.
  Proof. induction N; intros; [cbn; lia|]. cbn [seq flat_map]. rewrite app_length, HB, IHN. lia. Qed.
  Lemma skipn_blocks : forall k N i, (k <= N)%nat ->
    skipn (h * k) (flat_map B (seq i N)) = flat_map B (seq (i + k) (N - k)).
  Proof.
    induction k as [|k IH]; intros N i Hk.
    - rewrite Nat.mul_0_r, Nat.add_0_r, Nat.sub_0_r. reflexivity.
    - destruct N as [|N]; [lia|]. cbn [seq flat_map].
      rewrite skipn_app, HB, (skipn_all2 (B i)) by (rewrite HB; nia).
      replace (h * S k - h)%nat with (h * k)%nat by lia. cbn [app]. rewrite IH by lia.
      f_equal. f_equal; lia.
  Qed.
End Blocks.

Section MacProof.
  Variable h : hashops.
  Variable wf : hctx h -> Prop.
  Variable H : list Z -> list Z.
  Variable maxlen : Z.
  Hypothesis OK : hash_ok h wf H maxlen.
  Let bs := h_bs h.
  Let ds := h_ds h.
  Let MAC := HMAC H bs.

  Definition ipad (K : list Z) : list Z := map (Z.lxor 0x36) (hmac_key H bs K).
  Definition opad (K : list Z) : list Z := map (Z.lxor 0x5c) (hmac_key H bs K).

  Definition keyed (K : list Z) (c : hmctx h) : Prop :=
    wf (hm_h h c) /\ bytes K /\ hm_ipad h c = ipad K /\ hm_opad h c = opad K.
  (** The context is keyed with K and has absorbed m. *)
  Definition hmst (K : list Z) (c : hmctx h) (m : list Z) : Prop :=
    bytes K /\ hm_ipad h c = ipad K /\ hm_opad h c = opad K /\
    exists c0 ms, wf c0 /\ Forall bytes ms /\ concat ms = m /\
      hm_h h c = h_updates h (h_init h c0) (ipad K :: ms).

  Lemma wf_updates : forall ms c, wf c -> wf (h_updates h c ms).
  Proof.
    induction ms as [|m ms IH]; intros c Hc; [exact Hc|]. apply IH. apply (ok_update _ _ _ _ OK); auto.
  Qed.

  Lemma hmst_keyed : forall K c m, hmst K c m -> keyed K c.
  Proof.
    intros K c m (HK & Hi & Ho & c0 & ms & Hc0 & _ & _ & E). repeat split; auto.
    rewrite E. apply wf_updates. apply (ok_init _ _ _ _ OK); auto.
  Qed.

  Lemma key_bytes : forall K, bytes K -> bytes (hmac_key H bs K).
  Proof.
    intros K HK. unfold hmac_key. apply bytes_app; [|apply bytes_zeros].
    destruct (bs <? length K)%nat; auto. apply (ok_bytes _ _ _ _ OK); auto.
  Qed.
  Lemma key_length : forall K, length (hmac_key H bs K) = bs.
  Proof.
    intros K. pose proof (ok_ds_bs _ _ _ _ OK) as Hd. fold ds bs in Hd.
    unfold hmac_key. rewrite app_length, length_zeros.
    destruct (Nat.ltb_spec bs (length K)); [rewrite (ok_len _ _ _ _ OK)|]; fold ds; lia.
  Qed.
  Lemma bytes_map_xor : forall k l, byte k -> bytes l -> bytes (map (Z.lxor k) l).
  Proof.
    intros k l Hk Hl. induction Hl; cbn [map]; constructor; auto. apply byte_lxor; auto.
  Qed.
  Lemma ipad_bytes : forall K, bytes K -> bytes (ipad K).
  Proof. intros. apply bytes_map_xor; [unfold byte; lia|apply key_bytes; auto]. Qed.
  Lemma opad_bytes : forall K, bytes K -> bytes (opad K).
  Proof. intros. apply bytes_map_xor; [unfold byte; lia|apply key_bytes; auto]. Qed.
  Lemma ipad_length : forall K, length (ipad K) = bs.
  Proof. intros. unfold ipad. rewrite map_length. apply key_length. Qed.
  Lemma opad_length : forall K, length (opad K) = bs.
  Proof. intros. unfold opad. rewrite map_length. apply key_length. Qed.

  Lemma reinit_st : forall K c, keyed K c -> hmst K (hmac_reinit h c) [].
  Proof.
    intros K c (Hw & HK & Hi & Ho). unfold hmac_reinit, hmst. cbn [hm_ipad hm_opad hm_h].
    repeat split; auto. exists (hm_h h c), []. repeat split; auto. rewrite Hi. reflexivity.
  Qed.

  Lemma init_st : forall K c, wf (hm_h h c) -> bytes K -> Z.of_nat (length K) < maxlen ->
    hmst K (hmac_init h c K) [].
  Proof.
    intros K c Hw HK Hl. unfold hmac_init.
    pose proof (ok_bs _ _ _ _ OK) as Hb. pose proof (ok_ds64 _ _ _ _ OK) as Hd.
    replace ((144 <? h_bs h) || (64 <? h_ds h))%nat with false
      by (symmetry; apply orb_false_iff; split; apply Nat.ltb_ge; lia).
    assert (E : exists hc,
      (if (h_bs h <? length K)%nat then
          let '(d, hc) := h_final h (h_update h (h_init h (hm_h h c)) K) in
          (d ++ zeros (h_bs h - h_ds h), hc)
        else (K ++ zeros (h_bs h - length K), hm_h h c)) = (hmac_key H bs K, hc) /\ wf hc).
    { unfold hmac_key, bs. destruct (h_bs h <? length K)%nat eqn:E.
      - pose proof (ok_hash _ _ _ _ OK (hm_h h c) [K] Hw) as Hh. cbn [concat] in Hh.
        rewrite app_nil_r in Hh. specialize (Hh ltac:(constructor; auto) Hl).
        unfold h_updates in Hh. cbn [fold_left] in Hh.
        pose proof (ok_final _ _ _ _ OK (h_update h (h_init h (hm_h h c)) K)
          (ok_update _ _ _ _ OK _ _ (ok_init _ _ _ _ OK _ Hw))) as Hf.
        destruct (h_final h (h_update h (h_init h (hm_h h c)) K)) as [d hc]. cbn [fst snd] in *.
        exists hc. split; auto. rewrite Hh, (ok_len _ _ _ _ OK). reflexivity.
      - eexists. split; [reflexivity|auto]. }
    destruct E as (hc & -> & Hhc). apply reinit_st. repeat split; cbn [hm_h hm_ipad hm_opad]; auto.
    - apply map_ext. intros. apply Z.lxor_comm.
    - apply map_ext. intros. apply Z.lxor_comm.
  Qed.

  Lemma update_st : forall K c m x, hmst K c m -> bytes x -> hmst K (hmac_update h c x) (m ++ x).
  Proof.
    intros K c m x (HK & Hi & Ho & c0 & ms & Hc0 & Hb & E & E2) Hx.
    repeat split; auto. exists c0, (ms ++ [x]). repeat split; auto.
    - apply Forall_app. split; auto.
    - rewrite concat_app, E. cbn [concat]. rewrite app_nil_r. reflexivity.
    - unfold hmac_update. cbn [hm_h]. rewrite E2. unfold h_updates.
      rewrite app_comm_cons, fold_left_app. reflexivity.
  Qed.

  Lemma updates_st : forall ms K c m, hmst K c m -> Forall bytes ms -> hmst K (hmac_updates h c ms) (m ++ concat ms).
  Proof.
    induction ms as [|x ms IH]; intros K c m Hs Hb.
    - cbn [concat]. rewrite app_nil_r. exact Hs.
    - inversion Hb; subst. cbn [concat]. rewrite app_assoc. apply IH; auto. apply update_st; auto.
  Qed.

  Lemma MAC_length : forall K m, length (MAC K m) = ds.
  Proof. intros. unfold MAC, HMAC. apply (ok_len _ _ _ _ OK). Qed.
  Lemma MAC_bytes : forall K m, bytes K -> bytes m -> bytes (MAC K m).
  Proof.
    intros K m HK Hm. unfold MAC, HMAC. apply (ok_bytes _ _ _ _ OK).
    apply bytes_app; [apply opad_bytes; auto|]. apply (ok_bytes _ _ _ _ OK).
    apply bytes_app; [apply ipad_bytes; auto|auto].
  Qed.

  Lemma final_st : forall K c m, hmst K c m -> Z.of_nat (bs + length m) < maxlen ->
    exists c', hmac_final h c = (MAC K m, c') /\ keyed K c'.
  Proof.
    intros K c m Hs Hl. pose proof (hmst_keyed _ _ _ Hs) as (Hw & _).
    destruct Hs as (HK & Hi & Ho & c0 & ms & Hc0 & Hb & E & E2).
    unfold hmac_final.
    pose proof (ok_hash _ _ _ _ OK c0 (ipad K :: ms) Hc0) as Hh.
    cbn [concat] in Hh. rewrite E in Hh.
    specialize (Hh ltac:(constructor; auto using ipad_bytes) ltac:(rewrite app_length, ipad_length; exact Hl)).
    rewrite <- E2 in Hh.
    pose proof (ok_final _ _ _ _ OK _ Hw) as Hf.
    destruct (h_final h (hm_h h c)) as [mac hc]. cbn [fst snd] in Hh, Hf.
    pose proof (ok_bs _ _ _ _ OK) as Hb1. pose proof (ok_ds64 _ _ _ _ OK) as Hd1. pose proof (ok_max _ _ _ _ OK) as Hmx.
    assert (Bm : bytes mac).
    { rewrite Hh. apply (ok_bytes _ _ _ _ OK), bytes_app; [apply ipad_bytes; auto|]. rewrite <- E. 
      clear - Hb. induction ms; [constructor|]. inversion Hb; subst. cbn [concat]. apply bytes_app; auto. }
    pose proof (ok_hash _ _ _ _ OK hc [hm_opad h c; mac] Hf) as Hh2. cbn [concat] in Hh2.
    rewrite app_nil_r, Ho in Hh2.
    assert (HF : Forall bytes [opad K; mac]) by (repeat constructor; auto using opad_bytes).
    assert (HL : Z.of_nat (length (opad K ++ mac)) < maxlen).
    { rewrite app_length, opad_length, Hh, (ok_len _ _ _ _ OK). unfold bs. lia. }
    specialize (Hh2 HF HL). unfold h_updates in Hh2. cbn [fold_left] in Hh2.
    pose proof (ok_final _ _ _ _ OK (h_update h (h_update h (h_init h hc) (opad K)) mac)
      (ok_update _ _ _ _ OK _ _ (ok_update _ _ _ _ OK _ _ (ok_init _ _ _ _ OK _ Hf)))) as Hf2.
    rewrite Ho.
    destruct (h_final h (h_update h (h_update h (h_init h hc) (opad K)) mac)) as [mac2 hc2].
    cbn [fst snd] in *. eexists. split.
    - rewrite Hh2, Hh. reflexivity.
    - repeat split; cbn [hm_h hm_ipad hm_opad]; auto.
  Qed.

  Theorem hmac_correct : forall K c ms, wf (hm_h h c) -> bytes K -> Forall bytes ms ->
    Z.of_nat (length K) < maxlen -> Z.of_nat (bs + length (concat ms)) < maxlen ->
    fst (hmac_final h (hmac_updates h (hmac_init h c K) ms)) = MAC K (concat ms).
  Proof.
    intros K c ms Hw HK Hm HlK Hlm.
    destruct (final_st K _ (concat ms) (updates_st ms K _ [] (init_st K c Hw HK HlK) Hm) Hlm) as (c' & -> & _).
    reflexivity.
  Qed.

  (** After final, reinit starts a new computation under the same key. *)
  Theorem hmac_reuse : forall K c m ms, hmst K c m -> Z.of_nat (bs + length m) < maxlen -> Forall bytes ms ->
    Z.of_nat (bs + length (concat ms)) < maxlen ->
    fst (hmac_final h (hmac_updates h (hmac_reinit h (snd (hmac_final h c))) ms)) = MAC K (concat ms).
  Proof.
    intros K c m ms Hs Hl Hm Hlm. destruct (final_st K c m Hs Hl) as (c1 & -> & Hk). cbn [snd].
    destruct (final_st K _ (concat ms) (updates_st ms K _ [] (reinit_st K c1 Hk) Hm) Hlm) as (c' & -> & _).
    reflexivity.
  Qed.

  (** ** HKDF *)
  Section HK.
    Variable prk : list Z.
    Variable info : option (list Z).
    Let inf := match info with Some x => x | None => [] end.
    Hypothesis Binf : bytes inf.
    Hypothesis Linf : Z.of_nat (length inf) < 2 ^ 60.
    Hypothesis Bprk : bytes prk.
    Let T := hkdf_T H bs prk inf.

    Lemma T_length : forall i, (0 < i)%nat -> length (T i) = ds.
    Proof. intros [|i] Hi; [lia|]. unfold T. cbn [hkdf_T]. apply MAC_length. Qed.
    Lemma T_le : forall i, (length (T i) <= ds)%nat.
    Proof. intros [|i]; [cbn; lia|]. rewrite T_length; lia. Qed.
    Lemma T_bytes : forall i, (i <= 255)%nat -> bytes (T i).
    Proof.
      induction i as [|i IH]; intros Hi; [constructor|]. unfold T. cbn [hkdf_T]. fold T.
      apply MAC_bytes; auto. apply bytes_app; [apply IH; lia|]. apply bytes_app; auto.
      constructor; [unfold byte; lia|constructor].
    Qed.

    (** i blocks were computed, q bytes of the last one were handed out (q = ds when i = 0). *)
    Definition hkinv (i q : nat) (c : hkctx h) : Prop :=
      hmst prk (hk_hmac h c) (firstn q (T i)) /\ hk_ctr h c = Z.of_nat i + 1 /\ (i <= 254)%nat /\
      (q <= ds)%nat /\ (q = ds -> (ds <= hk_ptr h c)%nat) /\
      ((q < ds)%nat -> (0 < i)%nat /\ hk_ptr h c = q /\ hk_partial h c = T i).

    Lemma upd_opt_st : forall c m, hmst prk c m -> hmst prk (upd_opt h c info) (m ++ inf).
    Proof.
      intros c m Hs. unfold upd_opt, inf in *. destruct info as [x|].
      - apply update_st; auto.
      - rewrite app_nil_r. exact Hs.
    Qed.

    Lemma hkdf_loop_ok : forall fuel dlen i c, (dlen <= fuel)%nat -> hkinv i ds c ->
      (dlen <= ds * (254 - i))%nat ->
      exists i' q' c', hkdf_loop h fuel c info dlen =
        (firstn dlen (flat_map T (seq (S i) (254 - i))), c') /\
        hkinv i' q' c' /\ (ds * i' + q' = ds * i + ds + dlen)%nat /\ hk_rng h c' = hk_rng h c.
    Proof.
      pose proof (ok_ds _ _ _ _ OK) as Hds0. fold ds in Hds0.
      pose proof (ok_bs _ _ _ _ OK) as Hb1. pose proof (ok_ds64 _ _ _ _ OK) as Hd1.
      pose proof (ok_max _ _ _ _ OK) as Hmx. fold ds in Hd1. fold bs in Hb1.
      induction fuel as [|f IH]; intros dlen i c Hf Hinv Hd.
      - exists i, ds, c. replace dlen with 0%nat by lia. cbn [hkdf_loop firstn]. repeat split; auto; try lia; apply Hinv.
      - cbn [hkdf_loop]. destruct (Nat.eqb_spec dlen 0) as [->|Hn].
        { exists i, ds, c. cbn [firstn]. auto. }
        destruct Hinv as (Hs & Hc & Hi & Hq & Hp1 & Hp2).
        assert (Hi' : (i < 254)%nat) by (destruct (Nat.eq_dec i 254); [subst; nia|lia]).
        rewrite firstn_all2 in Hs by apply T_le.
        assert (Hs1 : hmst prk (hmac_update h (upd_opt h (hk_hmac h c) info) [hk_ctr h c])
                        (T i ++ inf ++ [Z.of_nat (S i)])).
        { rewrite Hc. replace (Z.of_nat i + 1) with (Z.of_nat (S i)) by lia. rewrite app_assoc.
          apply update_st; [|constructor; [unfold byte; lia|constructor]].
          apply upd_opt_st; auto. }
        assert (Hll : Z.of_nat (bs + length (T i ++ inf ++ [Z.of_nat (S i)])) < maxlen).
        { rewrite !app_length. cbn [length]. pose proof (T_le i). lia. }
        destruct (final_st _ _ _ Hs1 Hll) as (c1 & -> & Hk1).
        change (MAC prk (T i ++ inf ++ [Z.of_nat (S i)])) with (T (S i)).
        assert (Hlen : length (T (S i)) = ds) by (apply T_length; lia).
        assert (HTb : bytes (T (S i))) by (apply T_bytes; lia).
        pose proof (reinit_st _ _ Hk1) as Hr.
        assert (Hctr : u8 (hk_ctr h c + 1) = Z.of_nat (S i) + 1).
        { rewrite Hc. unfold u8. rewrite Z.mod_small; lia. }
        replace (254 - i)%nat with (S (254 - S i)) by lia. cbn [seq flat_map].
        fold ds. destruct (Nat.ltb_spec dlen ds).
        + exists (S i), dlen. eexists. split; [|split; [|split]].
          * rewrite firstn_app, Hlen. replace (dlen - ds)%nat with 0%nat by lia.
            rewrite firstn_O, app_nil_r. reflexivity.
          * unfold hkinv. cbn [hk_hmac hk_ctr hk_ptr hk_partial]. split; [|repeat split; auto; try lia].
            apply (update_st prk _ [] (firstn dlen (T (S i)))); auto. apply bytes_firstn; auto.
          * lia.
          * reflexivity.
        + destruct (IH (dlen - ds)%nat (S i) (mkHK h (hmac_update h (hmac_reinit h c1) (T (S i))) (hk_partial h c)
            (hk_ptr h c) (u8 (hk_ctr h c + 1)) (hk_rng h c))) as (i' & q' & c' & E & Hinv' & Hpos & Hrng); [lia| |nia|].
          { unfold hkinv. cbn [hk_hmac hk_ctr hk_ptr hk_partial]. rewrite firstn_all2 by lia.
            split; [apply (update_st prk _ [] (T (S i))); auto|].
            repeat split; auto; try lia. }
          rewrite E. exists i', q', c'. split; [|split; [auto|split; [nia|exact Hrng]]].
          rewrite firstn_app, Hlen, (firstn_all2 (T (S i))) by lia. reflexivity.
    Qed.

    Lemma stream_from : forall i n, (i <= 254)%nat -> (n <= ds * (254 - i))%nat ->
      firstn n (flat_map T (seq (S i) (254 - i))) = slice (hkdf_stream H bs prk inf) (ds * i) n.
    Proof.
      intros i n Hi Hn. unfold slice, hkdf_stream.
      assert (HT' : forall k, length (if (k =? 0)%nat then zeros ds else T k) = ds).
      { intros [|k]; [apply length_zeros|]. cbn [Nat.eqb]. apply T_length. lia. }
      assert (EQ : forall a N, (0 < a)%nat -> flat_map T (seq a N) = flat_map (fun k => if (k =? 0)%nat then zeros ds else T k) (seq a N)).
      { intros a N Ha. rewrite !flat_map_concat_map. f_equal. apply map_ext_in. intros k Hk. apply in_seq in Hk.
        destruct (Nat.eqb_spec k 0); [lia|reflexivity]. }
      fold T. rewrite !EQ by lia. set (T' := fun k => _) in *.
      assert (HT'' : forall k, length (T' k) = ds) by exact HT'.
      rewrite (skipn_blocks T' ds (ok_ds _ _ _ _ OK) HT'') by lia.
      replace (255 - i)%nat with ((254 - i) + 1)%nat by lia. rewrite seq_app, flat_map_app.
      rewrite firstn_app, (flat_blocks_length T' ds (ok_ds _ _ _ _ OK) HT'').
      replace (n - _)%nat with 0%nat by lia. rewrite firstn_O, app_nil_r. reflexivity.
    Qed.

    Lemma stream_length : length (hkdf_stream H bs prk inf) = (ds * 255)%nat.
    Proof.
      unfold hkdf_stream. fold T. change (hkdf_T H bs prk inf) with T. 
      assert (forall N a, (0 < a)%nat -> length (flat_map T (seq a N)) = (ds * N)%nat) as E.
      { induction N; intros a Ha; [cbn; lia|]. cbn [seq flat_map]. rewrite app_length, T_length, IHN by lia. lia. }
      apply E. lia.
    Qed.

    Lemma expand_internal_ok : forall dlen i c, hkinv i ds c -> (dlen <= ds * (254 - i))%nat ->
      exists i' q' c', hkdf_expand_internal h c info dlen = (0, slice (hkdf_stream H bs prk inf) (ds * i) dlen, c') /\
        hkinv i' q' c' /\ (ds * i' + q' = ds * i + ds + dlen)%nat /\ hk_rng h c' = hk_rng h c.
    Proof.
      intros dlen i c Hinv Hd. unfold hkdf_expand_internal.
      destruct (Z.gtb_spec (Z.of_nat dlen) (Z.of_nat (h_ds h) * (255 - hk_ctr h c))) as [Hg|Hg].
      - exfalso. destruct Hinv as (_ & Hc & Hi & _). rewrite Hc in Hg. unfold ds in *. nia.
      - destruct (hkdf_loop_ok dlen dlen i c (le_n _) Hinv Hd) as (i' & q' & c' & E & Hrest).
        rewrite E. exists i', q', c'. split; [|exact Hrest]. rewrite stream_from; auto. apply Hinv.
    Qed.

    Lemma rng_generate_ok : forall n i q c, hkinv i q c -> hk_rng h c = true ->
      (ds * i + q + n <= ds * 255)%nat ->
      exists i' q' c', hkdf_rng_generate h c info n =
        (0, slice (hkdf_stream H bs prk inf) (ds * i + q - ds) n, c') /\
        hkinv i' q' c' /\ (ds * i' + q' = ds * i + q + n)%nat /\ hk_rng h c' = true.
    Proof.
      intros n i q c Hinv Hrng Hn. unfold hkdf_rng_generate. rewrite Hrng. cbn [negb].
      pose proof (ok_ds _ _ _ _ OK) as Hds0. fold ds in Hds0 |- *.
      destruct (Nat.eq_dec q ds) as [->|Hqd].
      - assert (Hp : (ds <= hk_ptr h c)%nat) by (apply Hinv; auto).
        destruct (Nat.ltb_spec (hk_ptr h c) ds); [lia|]. cbn [length]. rewrite Nat.sub_0_r.
        destruct (Nat.eqb_spec n 0) as [->|Hn0].
        + exists i, ds, c. split; [unfold slice; rewrite firstn_O; reflexivity|]. split; [exact Hinv|]. split; [lia|exact Hrng].
        + assert (Hi : (i <= 254)%nat) by apply Hinv.
          destruct (expand_internal_ok n i c Hinv) as (i' & q' & c' & E & Hinv' & Hpos & Hr'); [nia|].
          rewrite E. exists i', q', c'. cbn [app].
          replace (ds * i + ds - ds)%nat with (ds * i)%nat by lia.
          split; [reflexivity|]. split; [exact Hinv'|]. split; [exact Hpos|congruence].
      - destruct Hinv as (Hs & Hc & Hi & Hq & Hp1 & Hp2).
        destruct (Hp2 ltac:(lia)) as (Hi0 & Hptr & Hpar).
        rewrite Hptr, Hpar. destruct (Nat.ltb_spec q ds); [|lia].
        set (todo := Nat.min n (ds - q)).
        assert (HTl : length (T i) = ds) by (apply T_length; lia).
        assert (Ho : slice (T i) q todo = slice (hkdf_stream H bs prk inf) (ds * i + q - ds) todo).
        { unfold hkdf_stream. fold T. change (hkdf_T H bs prk inf) with T.
          replace (seq 1 255) with (seq 1 (i - 1) ++ [i] ++ seq (S i) (255 - i)).
          2:{ replace 255%nat with ((i - 1) + (1 + (255 - i)))%nat at 2 by lia. rewrite seq_app. f_equal.
              replace (1 + (i - 1))%nat with i by lia. reflexivity. }
          rewrite !flat_map_app. unfold slice. cbn [flat_map]. rewrite app_nil_r.
          assert (E1 : forall N a, (0 < a)%nat -> length (flat_map T (seq a N)) = (ds * N)%nat).
          { induction N; intros a Ha; [cbn; lia|]. cbn [seq flat_map]. rewrite app_length, T_length, IHN by lia. lia. }
          rewrite skipn_app, (skipn_all2 (flat_map T (seq 1 (i - 1)))) by (rewrite E1; nia).
          rewrite E1 by lia. cbn [app]. replace (ds * i + q - ds - ds * (i - 1))%nat with q by nia.
          rewrite skipn_app, firstn_app, skipn_length, HTl.
          replace (todo - (ds - q))%nat with 0%nat by lia. rewrite firstn_O, app_nil_r. reflexivity. }
        assert (Hol : length (slice (T i) q todo) = todo).
        { unfold slice. rewrite firstn_length, skipn_length, HTl. lia. }
        assert (Hs' : hmst prk (hmac_update h (hk_hmac h c) (slice (T i) q todo)) (firstn (q + todo) (T i))).
        { replace (firstn (q + todo) (T i)) with (firstn q (T i) ++ slice (T i) q todo).
          - apply update_st; auto. apply bytes_firstn, bytes_skipn, T_bytes. lia.
          - unfold slice. symmetry.
            rewrite <- (firstn_skipn q (firstn (q + todo) (T i))) at 1.
            rewrite firstn_firstn, Nat.min_l by lia. f_equal.
            rewrite skipn_firstn_comm. f_equal. lia. }
        rewrite Hol. destruct (Nat.eqb_spec (n - todo) 0) as [E0|E0].
        + assert (Eo : slice (hkdf_stream H bs prk inf) (ds * i + q - ds) n = slice (T i) q todo).
          { rewrite Ho. f_equal. lia. }
          exists i, (q + todo)%nat. eexists. split; [|split; [|split]].
          * rewrite Eo. reflexivity.
          * unfold hkinv. cbn [hk_hmac hk_ctr hk_ptr hk_partial]. split; [exact Hs'|].
            split; [exact Hc|]. split; [exact Hi|]. split; [lia|]. split; [lia|]. intros _. split; [exact Hi0|]. split; [lia|reflexivity].
          * lia.
          * auto.
        + assert (Ht : todo = (ds - q)%nat) by lia.
          set (c1 := mkHK h _ _ _ _ _).
          assert (Hinv1 : hkinv i ds c1).
          { unfold hkinv, c1. cbn [hk_hmac hk_ctr hk_ptr hk_partial].
            replace (q + todo)%nat with ds in Hs' by lia. split; [exact Hs'|].
            split; [exact Hc|]. split; [exact Hi|]. split; [lia|]. split; [lia|]. intros; lia. }
          destruct (expand_internal_ok (n - todo) i c1 Hinv1) as (i' & q' & c' & E & Hinv' & Hpos & Hr'); [nia|].
          rewrite E. exists i', q', c'. split; [|split; [auto|split; [lia|rewrite Hr'; reflexivity]]].
          f_equal. f_equal. rewrite Ho.
          replace (ds * i)%nat with (ds * i + q - ds + todo)%nat at 2 by nia.
          rewrite slice_app. f_equal. lia.
    Qed.
  End HK.

  Lemma extract_ok : forall c ikm salt, wf (hm_h h (hk_hmac h c)) -> bytes ikm -> ikm <> [] ->
    bytes (match salt with Some s => s | None => [] end) ->
    Z.of_nat (length ikm) < 2 ^ 60 -> Z.of_nat (length (match salt with Some s => s | None => [] end)) < 2 ^ 60 ->
    exists hm, hkdf_extract h c ikm salt = (0, mkHK h hm (hk_partial h c) (hk_ptr h c) (hk_ctr h c) (hk_rng h c)) /\
      hmst (HKDF_Extract H bs ds salt ikm) hm [].
  Proof.
    intros c ikm salt Hw Hb Hne Hsb Hl1 Hl2. unfold hkdf_extract.
    pose proof (ok_bs _ _ _ _ OK) as Hb1. pose proof (ok_ds64 _ _ _ _ OK) as Hd1.
    pose proof (ok_max _ _ _ _ OK) as Hmx.
    destruct (Nat.eqb_spec (length ikm) 0) as [E|_]; [destruct ikm; [congruence|discriminate]|].
    set (K := match salt with Some s => s | None => zeros ds end).
    assert (EK : (match salt with Some s => hmac_init h (hk_hmac h c) s | None => hmac_init h (hk_hmac h c) (zeros (h_ds h)) end)
       = hmac_init h (hk_hmac h c) K) by (destruct salt; reflexivity).
    rewrite EK.
    assert (HK : bytes K) by (unfold K; destruct salt; [exact Hsb|apply bytes_zeros]).
    assert (HKl : Z.of_nat (length K) < maxlen).
    { unfold K, ds. destruct salt; [lia|rewrite length_zeros; lia]. }
    pose proof (update_st K _ [] ikm (init_st K (hk_hmac h c) Hw HK HKl) Hb) as Hs. cbn [app] in Hs.
    destruct (final_st K _ _ Hs) as (c1 & -> & Hk1); [unfold bs; lia|].
    eexists. split; [reflexivity|]. unfold HKDF_Extract. fold K.
    apply init_st; [apply Hk1|apply MAC_bytes; auto|]. rewrite MAC_length. unfold ds. lia.
  Qed.

  Definition ob (x : option (list Z)) : list Z := match x with Some s => s | None => [] end.
  Definition good (x : list Z) : Prop := bytes x /\ Z.of_nat (length x) < 2 ^ 60.

  Lemma fresh_inv : forall prk info hm, hmst prk hm [] -> hkinv prk info 0 ds (mkHK h hm (zeros 64) 64 1 false) /\
    hkinv prk info 0 ds (mkHK h hm (zeros 64) 64 1 true).
  Proof.
    intros prk info hm Hs. pose proof (ok_ds64 _ _ _ _ OK) as Hd1.
    split; unfold hkinv; cbn [hk_hmac hk_ctr hk_ptr hk_partial hkdf_T]; rewrite firstn_nil;
      (split; [exact Hs|]); unfold ds; repeat split; auto; lia.
  Qed.

  Lemma hkdf_ok : forall hm ikm salt info dlen, wf (hm_h h hm) -> good ikm -> ikm <> [] ->
    good (ob salt) -> good (ob info) -> (dlen <= ds * 254)%nat ->
    lc_hkdf h hm ikm salt info dlen = (0, HKDF_Expand H bs (HKDF_Extract H bs ds salt ikm) (ob info) dlen).
  Proof.
    intros hm ikm salt info dlen Hw [Hb Hl] Hne [Hsb Hsl] [Hib Hil] Hd. unfold lc_hkdf.
    destruct (extract_ok (hkdf_fresh h hm) ikm salt) as (hm' & -> & Hs); auto.
    cbn [Z.ltb Z.compare]. unfold hkdf_expand, hkdf_fresh. cbn [hk_hmac hk_partial hk_ptr hk_ctr hk_rng Z.gtb Z.compare Pos.compare Pos.compare_cont].
    assert (Bp : bytes (HKDF_Extract H bs ds salt ikm)) by apply Hs.
    destruct (expand_internal_ok _ info Hib Hil Bp dlen 0 _ (proj1 (fresh_inv _ info hm' Hs)))
      as (i' & q' & c' & E & _); [lia|].
    rewrite E. cbn [fst]. unfold HKDF_Expand, slice. rewrite Nat.mul_0_r. reflexivity.
  Qed.

  Lemma hkdf_limit : forall hm ikm salt info dlen, wf (hm_h h hm) -> good ikm -> ikm <> [] ->
    good (ob salt) -> (ds * 254 < dlen)%nat ->
    lc_hkdf h hm ikm salt info dlen = (EINVAL, []).
  Proof.
    intros hm ikm salt info dlen Hw [Hb Hl] Hne [Hsb Hsl] Hd. unfold lc_hkdf.
    destruct (extract_ok (hkdf_fresh h hm) ikm salt) as (hm' & -> & Hs); auto.
    cbn [Z.ltb Z.compare]. unfold hkdf_expand, hkdf_fresh. cbn [hk_hmac hk_partial hk_ptr hk_ctr hk_rng Z.gtb Z.compare Pos.compare Pos.compare_cont].
    unfold hkdf_expand_internal. cbn [hk_ctr].
    destruct (Z.gtb_spec (Z.of_nat dlen) (Z.of_nat (h_ds h) * (255 - 1))); [reflexivity|].
    unfold ds in Hd. lia.
  Qed.

  (** Draws of sizes ns, all with the same additional input. *)
  Fixpoint rng_draws (c : hkctx h) (info : option (list Z)) (ns : list nat) : list (Z * list Z) :=
    match ns with
    | [] => []
    | n :: ns' => let '(r, o, c') := hkdf_rng_generate h c info n in (r, o) :: rng_draws c' info ns'
    end.

  Lemma rng_draws_ok : forall ns prk info i q c, bytes prk -> good (ob info) ->
    hkinv prk info i q c -> hk_rng h c = true -> (ds * i + q + list_sum ns <= ds * 255)%nat ->
    map fst (rng_draws c info ns) = map (fun _ => 0) ns /\
    map (@length Z) (map snd (rng_draws c info ns)) = ns /\
    concat (map snd (rng_draws c info ns)) = slice (hkdf_stream H bs prk (ob info)) (ds * i + q - ds) (list_sum ns).
  Proof.
    induction ns as [|n ns IH]; intros prk info i q c Bp [Bi Li] Hinv Hr Hl.
    - repeat split. 
    - cbn [rng_draws list_sum fold_right] in *.
      destruct (rng_generate_ok prk info Bi Li Bp n i q c Hinv Hr) as (i' & q' & c' & E & Hinv' & Hpos & Hr'); [unfold list_sum in *; lia|].
      rewrite E. cbn [map fst snd concat].
      destruct (IH prk info i' q' c' Bp (conj Bi Li) Hinv' Hr') as (E1 & E2 & E3); [unfold list_sum in *; lia|].
      rewrite E1, E2, E3. split; [reflexivity|]. split.
      + f_equal. unfold slice. rewrite firstn_length, skipn_length. 
        rewrite (stream_length prk info).
        assert (0 < ds)%nat by exact (ok_ds _ _ _ _ OK). unfold list_sum in *. 
        destruct Hinv as (_ & _ & _ & Hq & _ & Hq2). destruct (Nat.eq_dec q ds); [lia|]. 
        destruct (Hq2 ltac:(lia)) as (Hi & _). nia.
      + change (match info with Some x => x | None => [] end) with (ob info).
        set (S0 := hkdf_stream H bs prk (ob info)).
        assert (Hge : (ds <= ds * i + q)%nat).
        { destruct Hinv as (_ & _ & _ & Hq & _ & Hq2). destruct (Nat.eq_dec q ds); [lia|].
          destruct (Hq2 ltac:(lia)) as (Hi & _). nia. }
        replace (ds * i' + q' - ds)%nat with (ds * i + q - ds + n)%nat by lia.
        apply slice_app.
  Qed.

  Lemma hkdf_rng_ok : forall hm seed pers info ns, wf (hm_h h hm) -> good seed -> seed <> [] ->
    good (ob pers) -> good (ob info) -> (list_sum ns <= ds * 254)%nat ->
    exists c, hkdf_rng_seed h (hkdf_fresh h hm) seed pers = (0, c) /\
      map fst (rng_draws c info ns) = map (fun _ => 0) ns /\
      map (@length Z) (map snd (rng_draws c info ns)) = ns /\
      concat (map snd (rng_draws c info ns)) =
        HKDF_Expand H bs (HKDF_Extract H bs ds pers seed) (ob info) (list_sum ns).
  Proof.
    intros hm seed pers info ns Hw [Hb Hl] Hne [Hsb Hsl] Hi Hd. unfold hkdf_rng_seed, hkdf_fresh. cbn [hk_rng hk_hmac hk_partial hk_ptr hk_ctr].
    destruct (extract_ok (mkHK h hm (zeros 64) 64 1 true) seed pers) as (hm' & -> & Hs); auto.
    eexists. split; [reflexivity|]. cbn [hk_hmac hk_partial hk_ptr hk_ctr hk_rng].
    assert (Bp : bytes (HKDF_Extract H bs ds pers seed)) by apply Hs.
    destruct (rng_draws_ok ns _ info 0 ds _ Bp Hi (proj2 (fresh_inv _ info hm' Hs)) eq_refl) as (E1 & E2 & E3); [lia|].
    repeat split; auto. rewrite E3. unfold HKDF_Expand, slice. replace (ds * 0 + ds - ds)%nat with 0%nat by lia. reflexivity.
  Qed.

  (** ** SP 800-108 *)
  Lemma be4_good : forall i, bytes (be_bytes 4 i) /\ length (be_bytes 4 i) = 4%nat.
  Proof. intros. split; [apply bytes_be_bytes|apply length_be_bytes]. Qed.

  Lemma label_st : forall K c m label, hmst K c m -> bytes label ->
    hmst K (if (length label =? 0)%nat then c else hmac_update h c label) (m ++ label).
  Proof.
    intros K c m label Hs Hb. destruct (Nat.eqb_spec (length label) 0) as [E|E].
    - destruct label; [|discriminate]. rewrite app_nil_r. exact Hs.
    - apply update_st; auto.
  Qed.

  Lemma ctr_loop_ok : forall fuel K label c dlen i, hmst K c [] -> good label -> (dlen <= fuel)%nat ->
    exists c' i', kdf_ctr_loop h fuel c label dlen i =
      (blocks (fun j => MAC K (be32 j ++ label)) ds fuel dlen i, c', i') /\ keyed K c'.
  Proof.
    pose proof (ok_ds _ _ _ _ OK) as Hds0. fold ds in Hds0.
    pose proof (ok_bs _ _ _ _ OK) as Hb1. fold bs in Hb1. pose proof (ok_max _ _ _ _ OK) as Hmx.
    induction fuel as [|f IH]; intros K label c dlen i Hs [Hb Hl] Hf.
    - exists c, i. split; [reflexivity|]. eapply hmst_keyed; eauto.
    - cbn [kdf_ctr_loop blocks]. destruct (Nat.eqb_spec dlen 0).
      { exists c, i. split; [reflexivity|]. eapply hmst_keyed; eauto. }
      pose proof (label_st _ _ _ label (update_st K c [] _ Hs (proj1 (be4_good (Z.of_nat i)))) Hb) as Hs1.
      cbn [app] in Hs1.
      destruct (final_st _ _ _ Hs1) as (c1 & E & Hk1).
      { rewrite app_length, (proj2 (be4_good _)). lia. }
      rewrite E. fold ds. destruct (Nat.ltb_spec dlen ds).
      + exists c1, (S i). split; [reflexivity|exact Hk1].
      + destruct (IH K label (hmac_reinit h c1) (dlen - ds)%nat (S i) (reinit_st _ _ Hk1) (conj Hb Hl)) as (c' & i' & E' & Hk'); [lia|].
        rewrite E'. exists c', i'. split; [reflexivity|exact Hk'].
  Qed.

  Lemma blocks_spec : forall B n, (forall i, length (B i) = ds) ->
    blocks B ds n n 1 = firstn n (flat_map B (seq 1 n)).
  Proof.
    intros B n HB. apply (blocks_ok B ds (ok_ds _ _ _ _ OK) HB); auto.
    pose proof (ok_ds _ _ _ _ OK) as Hds0. fold ds in Hds0. nia.
  Qed.

  Lemma kdf_ctr_ok : forall c key label dlen, wf (hm_h h c) -> good key -> good label ->
    lc_kdf_ctr h c key label dlen =
    if Z.of_nat dlen >? INT_MAX then (EMSGSIZE, []) else (0, KDF_CTR H bs key label dlen).
  Proof.
    intros c key label dlen Hw [Hkb Hkl] Hlab. unfold lc_kdf_ctr, kdf_ctr_generate_internal.
    destruct (_ >? INT_MAX); [reflexivity|]. pose proof (ok_max _ _ _ _ OK) as Hmx.
    destruct (ctr_loop_ok dlen key label _ dlen 1 (init_st key c Hw Hkb ltac:(lia)) Hlab (le_n _)) as (c' & i' & E & _).
    rewrite E. cbn [fst]. f_equal. apply blocks_spec. intros. apply MAC_length.
  Qed.

  Lemma fb_K_length : forall K iv fi i, length iv = ds -> length (fb_K H bs K iv fi i) = ds.
  Proof. intros K iv fi [|i] Hi; [exact Hi|]. apply MAC_length. Qed.
  Lemma fb_K_bytes : forall K iv fi i, bytes K -> bytes iv -> bytes fi -> bytes (fb_K H bs K iv fi i).
  Proof.
    intros K iv fi i HK Hi Hf. induction i as [|i IH]; [exact Hi|]. cbn [fb_K].
    apply MAC_bytes; auto. apply bytes_app; auto. apply bytes_app; auto. apply be4_good.
  Qed.

  Lemma fb_loop_ok : forall fuel K iv label c dlen i prev, hmst K c [] -> good label -> bytes iv -> length iv = ds ->
    (dlen <= fuel)%nat -> (0 < i)%nat -> (i <> 1%nat -> prev = fb_K H bs K iv label (i - 1)) ->
    kdf_fb_loop h fuel c iv prev label dlen i = blocks (fb_K H bs K iv label) ds fuel dlen i.
  Proof.
    pose proof (ok_ds _ _ _ _ OK) as Hds0. fold ds in Hds0. pose proof (ok_ds64 _ _ _ _ OK) as Hd1. fold ds in Hd1.
    pose proof (ok_bs _ _ _ _ OK) as Hb1. fold bs in Hb1. pose proof (ok_max _ _ _ _ OK) as Hmx.
    induction fuel as [|f IH]; intros K iv label c dlen i prev Hs [Hb Hl] Hiv Hivl Hf Hi Hprev; [reflexivity|].
    cbn [kdf_fb_loop blocks]. destruct (Nat.eqb_spec dlen 0); [reflexivity|].
    assert (HK : bytes K) by apply Hs.
    assert (Ep : (if (i =? 1)%nat then iv else prev) = fb_K H bs K iv label (i - 1)).
    { destruct (Nat.eqb_spec i 1) as [->|Hn]; [reflexivity|auto]. }
    rewrite Ep.
    pose proof (label_st _ _ _ label (update_st _ _ _ _ (update_st K c [] _ Hs
      (fb_K_bytes K iv label (i - 1) HK Hiv Hb)) (proj1 (be4_good (Z.of_nat i)))) Hb) as Hs1.
    cbn [app] in Hs1.
    destruct (final_st _ _ _ Hs1) as (c1 & E & Hk1).
    { rewrite !app_length, (proj2 (be4_good _)), fb_K_length by auto. lia. }
    rewrite E.
    assert (E2 : MAC K ((fb_K H bs K iv label (i - 1) ++ be_bytes 4 (Z.of_nat i)) ++ label) = fb_K H bs K iv label i).
    { destruct i; [lia|]. cbn [fb_K]. replace (S i - 1)%nat with i by lia. rewrite <- app_assoc. reflexivity. }
    rewrite E2. fold ds. destruct (Nat.ltb_spec dlen ds); [reflexivity|].
    f_equal. apply IH; auto; [apply reinit_st; auto|split; auto|lia|].
    intros _. f_equal. lia.
  Qed.

  Lemma kdf_fb_ok : forall c key iv label dlen, wf (hm_h h c) -> good key -> good label -> bytes iv ->
    lc_kdf_fb h c key iv label dlen =
    if Z.of_nat dlen >? INT_MAX then (EMSGSIZE, [])
    else if negb (length iv =? ds)%nat then (EINVAL, []) else (0, KDF_FB H bs key iv label dlen).
  Proof.
    intros c key iv label dlen Hw [Hkb Hkl] Hlab Hiv. unfold lc_kdf_fb.
    destruct (_ >? INT_MAX); [reflexivity|]. fold ds. destruct (Nat.eqb_spec (length iv) ds); [|reflexivity].
    cbn [negb]. pose proof (ok_max _ _ _ _ OK) as Hmx. f_equal.
    rewrite (fb_loop_ok dlen key iv label _ dlen 1 [] (init_st key c Hw Hkb ltac:(lia)) Hlab); auto; [|congruence].
    apply blocks_spec. intros. apply fb_K_length. auto.
  Qed.

  Lemma dpi_A_bytes : forall K fi i, bytes K -> bytes fi -> bytes (dpi_A H bs K fi i).
  Proof. intros K fi i HK Hf. induction i; [exact Hf|]. apply MAC_bytes; auto. Qed.
  Lemma dpi_A_good : forall K fi i, bytes K -> good fi -> good (dpi_A H bs K fi i).
  Proof.
    intros K fi i HK [Hf Hl]. split; [apply dpi_A_bytes; auto|]. destruct i; [exact Hl|].
    cbn [dpi_A]. pose proof (MAC_length K (dpi_A H bs K fi i)) as E. unfold MAC in E. rewrite E.
    pose proof (ok_ds64 _ _ _ _ OK) as Hd1. fold ds in Hd1. lia.
  Qed.

  Lemma dpi_loop_ok : forall fuel K label c dlen i Ai, hmst K c [] -> good label -> label <> [] ->
    (dlen <= fuel)%nat -> (0 < i)%nat -> (i <> 1%nat -> Ai = dpi_A H bs K label (i - 1)) ->
    kdf_dpi_loop h fuel c Ai label dlen i =
    blocks (fun j => MAC K (dpi_A H bs K label j ++ be32 j ++ label)) ds fuel dlen i.
  Proof.
    pose proof (ok_ds _ _ _ _ OK) as Hds0. fold ds in Hds0. pose proof (ok_ds64 _ _ _ _ OK) as Hd1. fold ds in Hd1.
    pose proof (ok_bs _ _ _ _ OK) as Hb1. fold bs in Hb1. pose proof (ok_max _ _ _ _ OK) as Hmx.
    induction fuel as [|f IH]; intros K label c dlen i Ai Hs [Hb Hl] Hne Hf Hi HAi; [reflexivity|].
    cbn [kdf_dpi_loop blocks]. destruct (Nat.eqb_spec dlen 0); [reflexivity|].
    assert (HK : bytes K) by apply Hs.
    destruct (Nat.eqb_spec (length label) 0) as [E0|E0]; [destruct label; [congruence|discriminate]|].
    cbn [negb]. rewrite andb_true_r.
    assert (Ec : (if (i =? 1)%nat then hmac_update h c label else hmac_update h c Ai)
                 = hmac_update h c (dpi_A H bs K label (i - 1))).
    { destruct (Nat.eqb_spec i 1) as [->|Hn]; [reflexivity|]. rewrite HAi by auto. reflexivity. }
    rewrite Ec.
    destruct (dpi_A_good K label (i - 1) HK (conj Hb Hl)) as [HA1 HA2].
    pose proof (update_st K c [] _ Hs HA1) as Hs1. cbn [app] in Hs1.
    destruct (final_st _ _ _ Hs1) as (c1 & E & Hk1); [lia|].
    rewrite E.
    assert (E1 : MAC K (dpi_A H bs K label (i - 1)) = dpi_A H bs K label i).
    { destruct i; [lia|]. cbn [dpi_A]. replace (S i - 1)%nat with i by lia. reflexivity. }
    rewrite E1.
    destruct (dpi_A_good K label i HK (conj Hb Hl)) as [HA3 HA4].
    assert (Hs2 : hmst K (hmac_update h (hmac_update h (hmac_update h (hmac_reinit h c1) (dpi_A H bs K label i))
              (be_bytes 4 (Z.of_nat i))) label) (dpi_A H bs K label i ++ be32 i ++ label)).
    { rewrite app_assoc. apply update_st; auto. apply update_st; [|apply be4_good].
      apply (update_st K _ []); auto. apply reinit_st; auto. }
    destruct (final_st _ _ _ Hs2) as (c2 & E2 & Hk2).
    { rewrite !app_length. unfold be32. rewrite (proj2 (be4_good _)), <- E1, MAC_length. lia. }
    rewrite E2. fold ds. destruct (Nat.ltb_spec dlen ds); [reflexivity|].
    f_equal. apply IH; auto; [apply reinit_st; auto|split; auto|lia|].
    intros _. f_equal. lia.
  Qed.

  Lemma kdf_dpi_ok : forall c key label dlen, wf (hm_h h c) -> good key -> good label -> label <> [] ->
    lc_kdf_dpi h c key label dlen =
    if Z.of_nat dlen >? INT_MAX then (EMSGSIZE, []) else (0, KDF_DPI H bs key label dlen).
  Proof.
    intros c key label dlen Hw [Hkb Hkl] Hlab Hne. unfold lc_kdf_dpi.
    destruct (_ >? INT_MAX); [reflexivity|]. pose proof (ok_max _ _ _ _ OK) as Hmx. f_equal.
    rewrite (dpi_loop_ok dlen key label _ dlen 1 _ (init_st key c Hw Hkb ltac:(lia)) Hlab Hne); auto; [|congruence].
    apply blocks_spec. intros. apply MAC_length.
  Qed.

  (** ** PBKDF2 *)
  Lemma pb_U_good : forall P S i j, bytes P -> bytes S -> bytes (pb_U H bs P S i j) /\ length (pb_U H bs P S i j) = ds.
  Proof.
    intros P S i j HP HS. induction j as [|j [IH1 IH2]]; cbn [pb_U].
    - split; [apply MAC_bytes; auto; apply bytes_app; auto; apply be4_good|apply MAC_length].
    - split; [apply MAC_bytes; auto|apply MAC_length].
  Qed.
  Lemma pb_F_length : forall P S i c, bytes P -> bytes S -> length (pb_F H bs ds P S i c) = ds.
  Proof.
    intros P S i c HP HS. induction c as [|c IH]; cbn [pb_F]; [apply length_zeros|].
    rewrite length_xorl, IH, (proj2 (pb_U_good P S i c HP HS)). lia.
  Qed.

  Lemma pb_inner_ok : forall k P S i j c u n, bytes P -> good S ->
    (if (j =? 0)%nat then hmst P c (S ++ be32 i)
     else hmst P c [] /\ u = pb_U H bs P S i (j - 1)) ->
    (n <= ds)%nat ->
    exists c', pb_inner h k (j =? 0)%nat c u (firstn n (pb_F H bs ds P S i j)) =
      (firstn n (pb_F H bs ds P S i (j + k)), c') /\ (0 < j + k -> hmst P c' [])%nat.
  Proof.
    pose proof (ok_ds64 _ _ _ _ OK) as Hd1. fold ds in Hd1.
    pose proof (ok_bs _ _ _ _ OK) as Hb1. fold bs in Hb1. pose proof (ok_max _ _ _ _ OK) as Hmx.
    induction k as [|k IH]; intros P S i j c u n HP HS Hst Hn.
    - cbn [pb_inner]. rewrite Nat.add_0_r. exists c. split; [reflexivity|].
      intros Hj. destruct (Nat.eqb_spec j 0); [lia|apply Hst].
    - cbn [pb_inner].
      assert (Hs : exists m, hmst P (if (j =? 0)%nat then c else hmac_update h c u) m /\
                    MAC P m = pb_U H bs P S i j /\ Z.of_nat (bs + length m) < maxlen).
      { destruct HS as [HSb HSl]. destruct (Nat.eqb_spec j 0) as [->|Hj].
        - exists (S ++ be32 i). split; [exact Hst|]. split; [reflexivity|].
          rewrite app_length. unfold be32. rewrite (proj2 (be4_good _)). lia.
        - destruct Hst as [Hst ->]. exists (pb_U H bs P S i (j - 1)).
          destruct (pb_U_good P S i (j - 1) HP HSb) as [HU1 HU2].
          split; [apply (update_st P _ []); auto|]. split; [|rewrite HU2; lia].
          destruct j; [lia|]. cbn [pb_U]. replace (Datatypes.S j - 1)%nat with j by lia. reflexivity. }
      destruct Hs as (m & Hs & EM & Hl).
      destruct (final_st _ _ _ Hs Hl) as (c1 & E & Hk1). rewrite E, EM.
      assert (EF : xorl (firstn n (pb_F H bs ds P S i j))
                     (firstn (length (firstn n (pb_F H bs ds P S i j))) (pb_U H bs P S i j))
                   = firstn n (pb_F H bs ds P S i (Datatypes.S j))).
      { rewrite firstn_length, (pb_F_length P S i j HP (proj1 HS)), Nat.min_l by lia. apply xorl_firstn. }
      rewrite EF.
      destruct (IH P S i (Datatypes.S j) (hmac_reinit h c1) (pb_U H bs P S i j) n HP HS) as (c' & E' & Hc'); auto.
      { cbn [Nat.eqb]. split; [apply reinit_st; auto|]. f_equal. lia. }
      cbn [Nat.eqb] in E'. rewrite E'. exists c'. replace (j + Datatypes.S k)%nat with (Datatypes.S j + k)%nat by lia.
      split; [reflexivity|]. intros _. apply Hc'. lia.
  Qed.

  Lemma firstn_zeros_F : forall P S i n, (n <= ds)%nat -> zeros n = firstn n (pb_F H bs ds P S i 0).
  Proof. intros. cbn [pb_F]. rewrite firstn_zeros. f_equal. lia. Qed.

  Lemma pb_loop_ok : forall fuel P S cnt c dlen i, hmst P c [] -> good S -> (0 < cnt)%nat -> (dlen <= fuel)%nat ->
    pb_loop h fuel c S cnt dlen i = blocks (fun j => pb_F H bs ds P S j cnt) ds fuel dlen i.
  Proof.
    induction fuel as [|f IH]; intros P S cnt c dlen i Hs HS Hcnt Hf; [reflexivity|].
    pose proof (ok_ds _ _ _ _ OK) as Hds0. fold ds in Hds0.
    assert (HP : bytes P) by apply Hs.
    cbn [pb_loop blocks]. destruct (Nat.eqb_spec dlen 0); [reflexivity|]. fold ds.
    pose proof (update_st _ _ _ _ (update_st P c [] _ Hs (proj1 HS)) (proj1 (be4_good (Z.of_nat i)))) as Hs1.
    cbn [app] in Hs1.
    rewrite (firstn_zeros_F P S i (Nat.min dlen ds)) by lia.
    destruct (pb_inner_ok cnt P S i 0 _ [] (Nat.min dlen ds) HP HS Hs1 ltac:(lia)) as (c' & E & Hc').
    cbn [Nat.eqb Nat.add] in E. rewrite E.
    destruct (Nat.ltb_spec dlen ds).
    - rewrite Nat.min_l by lia. reflexivity.
    - rewrite Nat.min_r by lia. rewrite firstn_all2 by (rewrite pb_F_length; auto; apply HS).
      f_equal. assert (Hc2 : hmst P c' []) by (apply Hc'; lia). apply IH; auto; lia.
  Qed.

  Lemma pbkdf2_ok : forall c pw salt cnt n, wf (hm_h h c) -> good pw -> good salt ->
    lc_pbkdf2 h c pw salt cnt n =
    if Z.of_nat n >? INT_MAX then (EMSGSIZE, [])
    else if (cnt =? 0)%nat then (EINVAL, []) else (0, PBKDF2 H bs ds pw salt cnt n).
  Proof.
    intros c pw salt cnt n Hw [Hpb Hpl] Hsl. unfold lc_pbkdf2.
    destruct (_ >? INT_MAX); [reflexivity|]. destruct (Nat.eqb_spec cnt 0); [reflexivity|].
    pose proof (ok_max _ _ _ _ OK) as Hmx. f_equal.
    rewrite (pb_loop_ok n pw salt cnt _ n 1 (init_st pw c Hw Hpb ltac:(lia)) Hsl) by lia.
    apply blocks_spec. intros. apply pb_F_length; auto. apply Hsl.
  Qed.

  (** ** HOTP *)
  Lemma trunc31 : forall a b c d, byte a -> byte b -> byte c -> byte d ->
    Z.lor (Z.lor (Z.lor (u32 (Z.shiftl (Z.land a 0x7f) 24)) (u32 (Z.shiftl (Z.land b 0xff) 16)))
            (u32 (Z.shiftl (Z.land c 0xff) 8))) (u32 (Z.land d 0xff)) = be_val [a; b; c; d] mod 2 ^ 31.
  Proof.
    intros a b c d Ha Hb Hc Hd. unfold byte in *.
    change 0x7f with (Z.ones 7). change 0xff with (Z.ones 8). rewrite !Z.land_ones by lia.
    rewrite !Z.shiftl_mul_pow2 by lia.
    rewrite (Z.mod_small b), (Z.mod_small c), (Z.mod_small d) by lia.
    pose proof (Z.mod_pos_bound a (2 ^ 7) ltac:(lia)) as Hm.
    unfold u32. rewrite (Z.mod_small (a mod 2 ^ 7 * 2 ^ 24)), (Z.mod_small (b * 2 ^ 16)), (Z.mod_small (c * 2 ^ 8)), (Z.mod_small d) by lia.
    rewrite (lor_mul_pow2 (a mod 2 ^ 7) (b * 2 ^ 16) 24) by lia.
    replace (a mod 2 ^ 7 * 2 ^ 24 + b * 2 ^ 16) with ((a mod 2 ^ 7 * 2 ^ 8 + b) * 2 ^ 16) by lia.
    rewrite (lor_mul_pow2 _ (c * 2 ^ 8) 16) by lia.
    replace ((a mod 2 ^ 7 * 2 ^ 8 + b) * 2 ^ 16 + c * 2 ^ 8) with (((a mod 2 ^ 7 * 2 ^ 8 + b) * 2 ^ 8 + c) * 2 ^ 8) by lia.
    rewrite (lor_mul_pow2 _ d 8) by lia.
    unfold be_val. cbn [rev app le_val].
    pose proof (Z.div_mod a (2 ^ 7) ltac:(lia)) as Hdm.
    apply (Z.mod_unique _ _ (a / 2 ^ 7)); lia.
  Qed.

  Lemma pow10_ok : forall d m, 0 <= m -> m * 10 ^ Z.of_nat d < 2 ^ 32 -> pow10 d m = m * 10 ^ Z.of_nat d.
  Proof.
    induction d as [|d IH]; intros m Hm Hl; [cbn [pow10]; cbn; lia|]. cbn [pow10].
    rewrite Nat2Z.inj_succ, Z.pow_succ_r in * by lia.
    assert (0 < 10 ^ Z.of_nat d) by (apply Z.pow_pos_nonneg; lia).
    assert (E : u32 (m * 10) = m * 10) by (unfold u32; apply Z.mod_small; nia).
    rewrite E, IH; nia.
  Qed.

  Lemma slice4 : forall l o, (o + 4 <= length l)%nat ->
    slice l o 4 = [nth o l 0; nth (o + 1) l 0; nth (o + 2) l 0; nth (o + 3) l 0].
  Proof.
    intros l o Hl. unfold slice. apply (nth_ext _ _ 0 0).
    - rewrite firstn_length, skipn_length. cbn [length]. lia.
    - intros k Hk. rewrite firstn_length, skipn_length in Hk.
      rewrite firstn_nth0 by lia. rewrite skipn_nth0.
      do 4 (destruct k as [|k]; [cbn [nth]; f_equal; lia|]). lia.
  Qed.

  Lemma hotp_ok : forall c key counter digits, wf (hm_h h c) -> good key -> (20 <= ds)%nat -> (digits <= 9)%nat ->
    lc_hotp h c key counter digits = Some (HOTP H bs ds key counter digits).
  Proof.
    intros c key counter digits Hw [Hkb Hkl] Hds Hdg. unfold lc_hotp, HOTP.
    pose proof (ok_max _ _ _ _ OK) as Hmx. pose proof (ok_bs _ _ _ _ OK) as Hb1. fold bs in Hb1.
    pose proof (update_st key _ [] (be_bytes 8 counter) (init_st key c Hw Hkb ltac:(lia)) (bytes_be_bytes 8 counter)) as Hs.
    cbn [app] in Hs. destruct (final_st _ _ _ Hs) as (c1 & E & _); [rewrite length_be_bytes; lia|].
    rewrite E. fold ds MAC. set (md := MAC key (be_bytes 8 counter)).
    assert (Hl : length md = ds) by apply MAC_length.
    assert (Hb : bytes md) by (apply MAC_bytes; auto; apply bytes_be_bytes).
    assert (Hp : pow10 digits 1 = 10 ^ Z.of_nat digits).
    { assert (10 ^ Z.of_nat digits <= 10 ^ 9) by (apply Z.pow_le_mono_r; lia). rewrite pow10_ok; lia. }
    rewrite Hp. assert (0 < 10 ^ Z.of_nat digits) by (apply Z.pow_pos_nonneg; lia).
    destruct (Z.eqb_spec (10 ^ Z.of_nat digits) 0); [lia|]. f_equal.
    change 0xf with (Z.ones 4). rewrite Z.land_ones by lia. change (2 ^ 4) with 16.
    set (o := Z.to_nat (nth (ds - 1) md 0 mod 16)).
    assert (Ho : (o <= 15)%nat).
    { unfold o. pose proof (Z.mod_pos_bound (nth (ds - 1) md 0) 16 ltac:(lia)). lia. }
    rewrite slice4 by lia. rewrite trunc31 by (apply bytes_nth; auto). reflexivity.
  Qed.
End MacProof.
