(** The Ascon-AEAD128 model against SP 800-232. *)
From Verif Require Import Bytes Words AsconSpec AsconModel AsconPerm KeccakBytes UtilModel UtilProof
  AeadAsconModel AeadAsconSpec AeadAsconProof AeadAsconTop.

Lemma xor_at_parts : forall s off d, (off + length d <= length s)%nat ->
  xor_at s off d = firstn off s ++ xorl (slice s off (length d)) d ++ skipn (off + length d) s.
Proof.
  intros s off d Hd.
  assert (Ls : length (slice s off (length d)) = length d) by (apply length_slice; lia).
  assert (Lx : length (xorl (slice s off (length d)) d) = length d) by (rewrite length_xorl; lia).
  assert (Lf : length (firstn off s) = off) by (rewrite firstn_length; lia).
  apply nth_ext0.
  - rewrite length_xor_at, !app_length, Lx, Lf, skipn_length. lia.
  - intros i Hi. rewrite length_xor_at in Hi. rewrite nth_xor_at by lia.
    destruct (Nat.ltb_spec i off).
    + rewrite app_nth1 by lia. symmetry. apply firstn_nth0. lia.
    + rewrite app_nth2 by lia. rewrite Lf.
      destruct (Nat.lt_ge_cases (i - off) (length d)).
      * rewrite app_nth1 by lia. rewrite nth_xorl by lia. rewrite nth_slice by lia.
        replace (off + (i - off))%nat with i by lia. reflexivity.
      * rewrite app_nth2 by lia. rewrite Lx, skipn_nth0.
        replace (off + length d + (i - off - length d))%nat with i by lia.
        rewrite (nth_overflow d) by lia. apply Z.lxor_0_r.
Qed.
Lemma xor_front_at : forall s b, (length b <= length s)%nat -> xor_front s b = xor_at s 0 b.
Proof. intros s b Hb. rewrite xor_at_parts by lia. reflexivity. Qed.

Lemma p8_asconB : forall s, st40 s -> p8 s = asconB 8 s.
Proof. intros. symmetry. apply asconB_spec; simpl; auto. Qed.
Lemma p12_asconB : forall s, st40 s -> p12 s = asconB 12 s.
Proof. intros. symmetry. apply asconB_spec; simpl; auto. Qed.
Lemma st40_xor : forall s o d, st40 s -> bytes d -> st40 (xor_at s o d).
Proof. intros s o d [A B] Hd. split; [rewrite length_xor_at; auto|apply bytes_xor_at; auto]. Qed.
Lemma st40_8 : forall s, st40 s -> st40 (asconB 8 s).
Proof. intros. apply asconB_st40; simpl; auto. Qed.
Lemma st40_12 : forall s, st40 s -> st40 (asconB 12 s).
Proof. intros. apply asconB_st40; simpl; auto. Qed.

Definition pt_ct (s : list Z) (cs : list (list Z)) (t : list Z) : list Z * list Z :=
  let '(s, c) := aead_blocks s cs in
  let s1 := xor_front s (t ++ [1]) in (s1, c ++ firstn (length t) s1).

Lemma firstn_xor_tail : forall s t, (length t < length s)%nat ->
  firstn (length t) (xor_front s (t ++ [1])) = slice (xor_at s 0 t) 0 (length t).
Proof.
  intros s t Ht. rewrite xor_front_at by (rewrite app_length; simpl; lia).
  rewrite xor_at_app. rewrite (xor_at_parts (xor_at s 0 t) (0 + length t) [1])
    by (rewrite length_xor_at; simpl; lia).
  rewrite Nat.add_0_l.
  rewrite firstn_app_l by (rewrite firstn_length, length_xor_at; lia).
  rewrite firstn_firstn, Nat.min_id. reflexivity.
Qed.

Lemma nist_ct : forall cs t s, st40 s -> Forall (fun c => length c = 16%nat) cs -> Forall bytes cs ->
  bytes t -> (length t < 16)%nat ->
  snd (ebytes AL 8 s 0 (concat cs ++ t)) = snd (pt_ct s cs t) /\
  (t = [] -> cs <> [] -> asconB 8 (fst (fst (ebytes AL 8 s 0 (concat cs ++ t)))) = fst (aead_blocks s cs) /\
     snd (fst (ebytes AL 8 s 0 (concat cs ++ t))) = 16%nat).
Proof.
  induction cs as [|c cs IH]; intros t s Hs Hl Hb Ht Hlt.
  - cbn [concat app]. rewrite (ebytes_run AL 40 8) by (try (simpl; lia); apply Hs).
    cbn [fst snd pt_ct aead_blocks]. unfold pt_ct. cbn [aead_blocks snd app].
    destruct Hs as [Hs1 Hs2].
    rewrite firstn_xor_tail by lia. split; [reflexivity|]. congruence.
  - assert (Lc := Forall_inv Hl). assert (Bc := Forall_inv Hb).
    assert (Hl' := Forall_inv_tail Hl). assert (Hb' := Forall_inv_tail Hb). cbv beta in Lc, Bc.
    assert (Hx : xor_front s c = xor_at s 0 c) by (apply xor_front_at; destruct Hs; lia).
    assert (Hs' : st40 (xor_at s 0 c)) by (apply st40_xor; auto).
    specialize (IH t (asconB 8 (xor_at s 0 c)) (st40_8 _ Hs') Hl' Hb' Ht Hlt).
    cbn [concat]. rewrite <- app_assoc.
    destruct (list_eq_dec Z.eq_dec (concat cs ++ t) []) as [En|En].
    + rewrite En, app_nil_r. rewrite (ebytes_run AL 40 8) by (try (simpl; lia); apply Hs).
      apply app_eq_nil in En. destruct En as [En ->].
      assert (cs = []).
      { destruct cs as [|c2 cs]; [reflexivity|]. assert (Hc2 := Forall_inv Hl'). cbv beta in Hc2.
        cbn [concat] in En. apply app_eq_nil in En. destruct En as [-> _]. simpl in Hc2. lia. }
      subst cs. unfold pt_ct. cbn [aead_blocks fst snd length firstn].
      rewrite Hx, Lc, !app_nil_r, p8_asconB by exact Hs'. split; [reflexivity|]. intros _ _. split; reflexivity.
    + rewrite (ebytes_block AL 40 8) by (try (simpl; lia); auto; apply Hs).
      change (sp_perm AL 8) with (asconB 8). change (sp_rate AL) with 16%nat.
      destruct (ebytes AL 8 (asconB 8 (xor_at s 0 c)) 0 (concat cs ++ t)) as [[s2 o2] ct].
      cbn [fst snd] in *. destruct IH as [I1 I2].
      unfold pt_ct in *. cbn [aead_blocks]. rewrite Hx, p8_asconB by exact Hs'.
      destruct (aead_blocks (asconB 8 (xor_at s 0 c)) cs) as [sx cx]. cbn [fst snd] in *.
      rewrite I1. split; [rewrite app_assoc; reflexivity|].
      intros Et _. apply I2; auto. intros ->. apply En. rewrite Et. reflexivity.
Qed.

Lemma bytes_concat_inv : forall cs, bytes (concat cs) -> Forall bytes cs.
Proof.
  induction cs as [|c cs IH]; intros Hb; constructor; apply bytes_app_inv in Hb; [apply Hb|apply IH, Hb].
Qed.

(** aead_ad for non-empty associated data *)
Lemma nist_ad_loop : forall cs t f s, st40 s -> Forall (fun c => length c = 16%nat) cs -> Forall bytes cs ->
  (length t < 16)%nat -> (length cs < f)%nat ->
  aad_loop AL f 8 s (concat cs ++ t) = (fold_left (fun s b => p8 (xor_front s b)) cs s, t).
Proof.
  induction cs as [|c cs IH]; intros t f s Hs Hl Hb Ht Hf; (destruct f as [|f]; [simpl in Hf; lia|]); cbn [aad_loop].
  - change (sp_rate AL) with 16%nat. cbn [concat app fold_left].
    destruct (Nat.leb_spec 16 (length t)); [lia|]. reflexivity.
  - assert (Lc := Forall_inv Hl). assert (Bc := Forall_inv Hb).
    assert (Hl' := Forall_inv_tail Hl). assert (Hb' := Forall_inv_tail Hb). cbv beta in Lc, Bc.
    change (sp_rate AL) with 16%nat. cbn [concat fold_left]. rewrite <- app_assoc.
    destruct (Nat.leb_spec 16 (length (c ++ concat cs ++ t))); [|rewrite app_length in *; lia].
    rewrite <- Lc. rewrite firstn_length_app, skipn_length_app.
    assert (Hs' : st40 (xor_at s 0 c)) by (apply st40_xor; auto).
    change (sp_perm AL 8) with (asconB 8). rewrite xor_front_at by (destruct Hs; lia).
    rewrite p8_asconB by exact Hs'.
    apply IH; auto using st40_8. simpl in Hf. lia.
Qed.
Lemma fold_st40 : forall cs s, st40 s -> Forall (fun c => length c = 16%nat) cs -> Forall bytes cs ->
  st40 (fold_left (fun s b => p8 (xor_front s b)) cs s).
Proof.
  induction cs as [|c cs IH]; intros s Hs Hl Hb; [exact Hs|].
  assert (Lc := Forall_inv Hl). assert (Bc := Forall_inv Hb). cbv beta in Lc, Bc.
  cbn [fold_left]. apply IH; try (eapply Forall_inv_tail; eassumption).
  assert (Hs' : st40 (xor_at s 0 c)) by (apply st40_xor; auto).
  rewrite xor_front_at by (destruct Hs; lia). rewrite p8_asconB by exact Hs'. apply st40_8. exact Hs'.
Qed.

Lemma chunks_pad16 : forall m,
  full_chunks 16 (pad16 m) = full_chunks 16 m ++ [tail_chunk 16 m ++ [1] ++ zeros (15 - length m mod 16)].
Proof.
  intros m. assert (R : (0 < 16)%nat) by lia.
  assert (T := tail_chunk_lt 16 m R). assert (TL := tail_chunk_length 16 m R).
  set (X := tail_chunk 16 m ++ [1] ++ zeros (15 - length m mod 16)).
  assert (LX : length X = 16%nat) by (unfold X; rewrite !app_length, length_zeros, <- TL; simpl length; lia).
  assert (E : pad16 m = concat (full_chunks 16 m ++ [X]) ++ []).
  { unfold pad16. rewrite app_nil_r, concat_app. cbn [concat]. rewrite app_nil_r. unfold X.
    rewrite (app_assoc (concat _)), <- (chunks_app 16 m R). reflexivity. }
  rewrite E. apply full_chunks_unique; auto.
  apply Forall_app. split; [apply full_chunks_len; lia|]. constructor; auto.
Qed.

Lemma firstn_nth_last : forall (s : list Z) x, length s = 40%nat ->
  xor_at s 39 [x] = firstn 39 s ++ [Z.lxor (nth 39 s 0) x].
Proof.
  intros s x Hs. rewrite xor_at_parts by (simpl; lia). simpl length.
  rewrite (skipn_all2 (n := 39 + 1) s) by lia. rewrite app_nil_r. f_equal.
  rewrite (nth_slice_S AL 40) by (simpl; lia). reflexivity.
Qed.

Lemma nist_ad : forall c A, st40 (ac_st c) -> bytes A -> A <> [] -> ac_roundb c = 8%nat -> ac_ssize c = 40%nat ->
  lc_ascon_aad AL c A = set_st c (aead_ad (ac_st c) A).
Proof.
  intros c A Hs Hb Hn Hr Hss. unfold lc_ascon_aad. destruct A as [|a A]; [congruence|].
  set (M := a :: A) in *. rewrite Hr, Hss.
  assert (R : (0 < 16)%nat) by lia.
  assert (T := tail_chunk_lt 16 M R). assert (TL := tail_chunk_length 16 M R).
  assert (FL := full_chunks_len 16 M R). assert (CA := chunks_app 16 M R).
  assert (Hbc : bytes (concat (full_chunks 16 M) ++ tail_chunk 16 M)) by (rewrite <- CA; exact Hb).
  apply bytes_app_inv in Hbc. destruct Hbc as [Hb1 Hb2]. apply bytes_concat_inv in Hb1.
  assert (LM : length M = (16 * length (full_chunks 16 M) + length (tail_chunk 16 M))%nat).
  { rewrite full_chunks_length, TL by lia. apply Nat.div_mod. lia. }
  assert (AL1 : aad_loop AL (length M) 8 (ac_st c) M =
                (fold_left (fun s b => p8 (xor_front s b)) (full_chunks 16 M) (ac_st c), tail_chunk 16 M)).
  { rewrite CA at 2. apply nist_ad_loop; auto.
    assert ((0 < length M)%nat) by (simpl; lia). lia. }
  rewrite AL1. unfold aead_ad.
  assert (Hz : (length M =? 0)%nat = false) by reflexivity. rewrite Hz.
  rewrite chunks_pad16, fold_left_app. cbn [fold_left].
  assert (Hf := fold_st40 (full_chunks 16 M) (ac_st c) Hs FL Hb1).
  set (S := fold_left (fun s b => p8 (xor_front s b)) (full_chunks 16 M) (ac_st c)) in *.
  assert (Ep : add_padbyte AL (xor_at S 0 (tail_chunk 16 M)) (length (tail_chunk 16 M)) =
               xor_front S (tail_chunk 16 M ++ [1] ++ zeros (15 - length M mod 16))).
  { rewrite xor_front_at by (rewrite !app_length, length_zeros, <- TL, (proj1 Hf); cbn [length]; lia).
    unfold add_padbyte. change (sp_rate AL) with 16%nat.
    assert (X : (length (tail_chunk 16 M) =? 16)%nat = false) by (apply Nat.eqb_neq; lia). rewrite X.
    rewrite app_assoc, xor_at_app, xor_at_zeros, xor_at_app. reflexivity. }
  rewrite Ep.
  assert (Hbp : bytes (tail_chunk 16 M ++ [1] ++ zeros (15 - length M mod 16))).
  { apply bytes_app; auto. apply bytes_app; [exact (byte1 AL)|apply bytes_zeros]. }
  assert (Hs2 : st40 (xor_front S (tail_chunk 16 M ++ [1] ++ zeros (15 - length M mod 16)))).
  { rewrite xor_front_at by (rewrite !app_length, length_zeros, <- TL, (proj1 Hf); cbn [length]; lia).
    apply st40_xor; auto. }
  change (sp_perm AL 8) with (asconB 8). rewrite p8_asconB by exact Hs2.
  apply (f_equal (set_st c)). change (40 - 1)%nat with 39%nat. apply firstn_nth_last. apply st40_8. exact Hs2.
Qed.

Lemma firstn_exact : forall n (a b : list Z), length a = n -> firstn n (a ++ b) = a.
Proof. intros n a b <-. apply firstn_length_app. Qed.
Lemma skipn_exact : forall n (a b : list Z), length a = n -> skipn n (a ++ b) = b.
Proof. intros n a b <-. apply skipn_length_app. Qed.
Lemma nist_init : forall t K N, length K = 16%nat -> length N = 16%nat -> bytes K -> bytes N ->
  key_state AL 40 t K N = aead_init K N.
Proof.
  intros t K N LK LN BK BN. unfold key_state, aead_init.
  change (fam_kl AL) with 16%nat. change (fam_iv AL t) with 0x00001000808c0001. change (sp_perm AL 12) with (asconB 12).
  set (iv := 0x00001000808c0001). unfold set_word0. change (skipn 8 (zeros 40)) with (zeros 32).
  assert (Li := length_le_bytes 8 iv). assert (Bi := bytes_le_bytes 8 iv).
  set (v := le_bytes 8 iv) in *. clearbody v.
  assert (E : xor_at (xor_at (v ++ zeros 32) 8 K) (8 + 16) N = v ++ K ++ N).
  { replace (8 + 16)%nat with (8 + length K)%nat by lia. rewrite <- xor_at_app.
    rewrite xor_at_parts by (rewrite !app_length, length_zeros; lia).
    rewrite !app_length, LK, LN. unfold slice.
    replace (firstn 8 (v ++ zeros 32)) with v by (symmetry; apply firstn_exact; exact Li).
    replace (skipn 8 (v ++ zeros 32)) with (zeros 32) by (symmetry; apply skipn_exact; exact Li).
    change (firstn (16 + 16) (zeros 32)) with (zeros 32).
    rewrite xorl_comm. rewrite xorl_zeros_r by (rewrite app_length; lia).
    rewrite (skipn_all2 (v ++ zeros 32)) by (rewrite app_length, length_zeros; lia).
    rewrite app_nil_r. reflexivity. }
  rewrite E.
  assert (Hs : st40 (v ++ K ++ N)).
  { split; [rewrite !app_length; lia|]. apply bytes_app; auto. apply bytes_app; auto. }
  rewrite p12_asconB by exact Hs. change (40 - 16)%nat with 24%nat.
  assert (LS := proj1 (st40_12 _ Hs)).
  set (S := asconB 12 (v ++ K ++ N)) in *.
  rewrite xor_at_parts by lia. rewrite LK. rewrite (skipn_all2 (n := 24 + 16) S) by lia. rewrite app_nil_r.
  unfold slice. rewrite (firstn_all2 (n := 16)) by (rewrite skipn_length; lia). reflexivity.
Qed.

Lemma nist_tag : forall c K buf, st40 (ac_st c) -> length K = 16%nat -> bytes K -> the_key c = K -> ac_keylen c = 16%nat ->
  firstn 16 (ac_key c) = K -> ac_ssize c = 40%nat -> ac_taglen c = 16%nat -> length buf = 16%nat ->
  ac_roundb c = 8%nat ->
  exists c', lc_ascon_enc_final AL c buf =
  Some (c', aead_tag (add_padbyte AL (asconB 8 (ac_st c)) (ac_off c)) K).
Proof.
  intros c K buf Hs LK BK Hk Hkl Hk2 Hss Ht Hbuf Hr.
  unfold lc_ascon_enc_final. cbn [ac_taglen set_st ac_st ac_off]. rewrite Ht, Hbuf, Hr.
  change (16 =? 16)%nat with true. cbn [negb]. unfold finalization. cbn [ac_st ac_keylen ac_ssize ac_key set_st].
  change (sp_perm AL 8) with (asconB 8). change (sp_perm AL 12) with (asconB 12).
  assert (Hp : st40 (add_padbyte AL (asconB 8 (ac_st c)) (ac_off c))).
  { unfold add_padbyte. apply st40_xor; [apply st40_8; exact Hs|exact (byte1 AL)]. }
  set (S := add_padbyte AL (asconB 8 (ac_st c)) (ac_off c)) in *.
  change (sp_rate AL) with 16%nat. rewrite Hkl, (proj1 Hp). change (40 <? 16 + 16)%nat with false. cbv iota.
  eexists. apply f_equal. apply f_equal2; [reflexivity|]. unfold the_key in *. cbn [ac_keylen ac_key set_st]. rewrite Hk, Hk2, Hss.
  change (40 - 16)%nat with 24%nat. unfold aead_tag.
  destruct Hp as [LS BS].
  assert (E : xor_at S 16 K = firstn 16 S ++ xorl (firstn 16 (skipn 16 S)) K ++ skipn 32 S).
  { rewrite xor_at_parts by lia. rewrite LK. reflexivity. }
  assert (Hs1 : st40 (xor_at S 16 K)) by (apply st40_xor; auto; split; auto).
  rewrite <- E, p12_asconB by exact Hs1.
  assert (LS1 := proj1 (st40_12 _ Hs1)). set (S1 := asconB 12 (xor_at S 16 K)) in *.
  unfold slice. rewrite xor_at_parts by lia. rewrite LK.
  assert (L24 : length (firstn 24 S1) = 24%nat) by (rewrite firstn_length; lia).
  rewrite (skipn_all2 (n := 24 + 16) S1) by lia. rewrite app_nil_r.
  rewrite skipn_app_r by lia. rewrite L24. change (skipn (24 - 24)) with (@skipn Z 0). cbn [skipn]. unfold slice.
  rewrite (firstn_all2 (n := 16) (skipn 24 S1)) by (rewrite skipn_length; lia).
  apply firstn_all2. rewrite length_xorl; rewrite ?skipn_length; lia.
Qed.

(** The whole one-shot encryption after a successful setkey. *)
Theorem nist_aead_ct : forall t K N A M buf, length K = 16%nat -> length N = 16%nat ->
  bytes K -> bytes N -> bytes A -> bytes M -> A <> [] -> t = 16%nat -> length buf = 16%nat ->
  exists c' tag, lc_aead_encrypt AL (keyed AL 40 t K N) M A buf =
    Some (0, c', fst (ASCON_AEAD128 K N A M), tag) /\
  (M <> [] -> (length M mod 16 = 0)%nat -> tag = snd (ASCON_AEAD128 K N A M)).
Proof.
  intros t K N A M buf LK LN BK BN BA BM HA -> Hbuf.
  assert (F := fam_al).
  assert (Li := length_key_state AL 40 16 K N F).
  assert (Bi := key_state_bytes AL 40 F 16 K N BK BN).
  assert (Hs0 : st40 (key_state AL 40 16 K N)) by (split; auto).
  assert (Ha := aad_bytes AL 40 F (keyed AL 40 16 K N) A Li Bi BA).
  assert (Hw := aad_wf AL 40 8 (keyed AL 40 16 K N) A F (keyed_wf AL 40 16 K N F)).
  assert (E1 := nist_ad (keyed AL 40 16 K N) A Hs0 BA HA eq_refl eq_refl).
  cbn [ac_st keyed] in E1. rewrite nist_init in E1 by auto.
  unfold lc_aead_encrypt, lc_ascon_encrypt. rewrite E1 in Ha, Hw |- *.
  cbn [ac_st set_st] in Ha. destruct Hw as (Hw1 & Hw2 & Hw3). cbn [ac_st set_st] in Hw1.
  set (S := aead_ad (aead_init K N) A) in *.
  assert (HS : st40 S) by (split; auto).
  rewrite (enc_update_bytes AL 40 8) by (simpl; try lia; try (intros; apply asconB_length); exact (conj Hw1 (conj Hw2 Hw3))).
  cbn [ac_st ac_off set_st keyed].
  assert (R : (0 < 16)%nat) by lia.
  assert (CA := chunks_app 16 M R).
  assert (Hbc : bytes (concat (full_chunks 16 M) ++ tail_chunk 16 M)) by (rewrite <- CA; exact BM).
  apply bytes_app_inv in Hbc. destruct Hbc as [Hb1 Hb2]. apply bytes_concat_inv in Hb1.
  destruct (nist_ct (full_chunks 16 M) (tail_chunk 16 M) S HS (full_chunks_len 16 M R) Hb1 Hb2
             (tail_chunk_lt 16 M R)) as [C1 C2].
  rewrite <- CA in C1, C2.
  assert (C3 := ebytes_bytes AL 40 F 8 M S 0 (proj1 HS) (Nat.le_0_l _) (proj2 HS) BM).
  assert (C4 := ebytes_inv AL 40 8 ltac:(simpl; lia) ltac:(simpl; lia) (fun r s _ => asconB_length r s) M S 0 (proj1 HS) (Nat.le_0_l _)).
  destruct (ebytes AL 8 S 0 M) as [[s1 o1] ct]. destruct C3 as [C3 _]. destruct C4 as (_ & C4 & _).
  cbn [fst snd] in C1, C2.
  destruct (nist_tag (set_so (set_st (keyed AL 40 16 K N) S) s1 o1) K buf) as (c' & Et); auto.
  { split; auto. }
  { exact (the_key_keyed AL 40 16 K N F LK). }
  { exact (the_key_keyed AL 40 16 K N F LK). }
  rewrite Et. cbn [ac_st ac_off set_so].
  unfold ASCON_AEAD128. fold S.
  assert (Epc : aead_pt S M = pt_ct S (full_chunks 16 M) (tail_chunk 16 M)) by reflexivity.
  rewrite Epc. destruct (pt_ct S (full_chunks 16 M) (tail_chunk 16 M)) as [sx cx] eqn:Ex.
  cbn [snd fst] in *. rewrite C1. eexists _, _. split; [reflexivity|].
  intros HM Hmod. assert (Etl : tail_chunk 16 M = []).
  { apply length_zero_iff_nil. rewrite tail_chunk_length by lia. exact Hmod. }
  assert (Hne : full_chunks 16 M <> []).
  { intros Z. apply HM. rewrite CA, Z, Etl. reflexivity. }
  destruct (C2 Etl Hne) as [D1 D2]. subst o1. unfold pt_ct in Ex. rewrite D1.
  rewrite Etl in Ex. destruct (aead_blocks S (full_chunks 16 M)) as [sb cb]. cbn [fst] in *.
  injection Ex as <- _. unfold add_padbyte. change (sp_rate AL) with 16%nat. change (16 =? 16)%nat with true. cbv iota.
  rewrite xor_front_at; [reflexivity|].
  assert (Lb : length sb = 40%nat) by (rewrite <- D1; apply asconB_length). simpl. lia.
Qed.
