(** The three instances of the Ascon family AEAD and the lemmas behind PropAead. *)
From Verif Require Import Bytes Words AsconSpec AsconModel AsconPerm KeccakBytes UtilModel UtilProof
  AeadAsconModel AeadAsconSpec AeadAsconProof.

(** lc_ascon_128a [hash/src/ascon_c.c: 180-194], lc_sha3_256 and lc_sha3_512 [hash/src/sha3_c.c]:
    permutation and rate. keccak_c_permutation ignores its rounds argument [sha3_c.c: 187-191]. *)
Definition AL : sponge := mkSp asconB 16.
Definition AK256 : sponge := mkSp (fun _ => permB) 136.
Definition AK512 : sponge := mkSp (fun _ => permB) 72.

(** A sponge together with the state size its context macros set. *)
Inductive family : sponge -> nat -> Prop :=
| fam_al : family AL 40
| fam_ak256 : family AK256 200
| fam_ak512 : family AK512 200.

Lemma family_facts : forall H L, family H L ->
  (0 < sp_rate H)%nat /\ (sp_rate H <= L)%nat /\ (sp_rate H <= 136)%nat /\ (48 <= L + 8)%nat /\
  (forall r s, length s = L -> length (sp_perm H r s) = L).
Proof.
  intros H L F. destruct F; simpl; repeat split; try lia; intros; auto using asconB_length, permB_length.
Qed.

(** Key length, round count and initial word per instance. *)
Definition fam_kl (H : sponge) : nat := match sp_rate H with 16 => 16 | 136 => 32 | _ => 64 end%nat.
Definition fam_rb (H : sponge) : nat := match sp_rate H with 16 => 8 | _ => 0 end%nat.
Definition fam_iv (H : sponge) (taglen : nat) : Z :=
  match sp_rate H with
  | 16%nat => 0x00001000808c0001
  | 136%nat => Z.lor 0x2088181800000000 (Z.shiftl (Z.of_nat taglen) 24)
  | _ => Z.lor 0x4048181800000000 (Z.shiftl (Z.of_nat taglen) 24)
  end.

Definition key_state (H : sponge) (L taglen : nat) (k n : list Z) : list Z :=
  xor_at (sp_perm H 12 (xor_at (xor_at (set_word0 (zeros L) (fam_iv H taglen)) 8 k) (8 + fam_kl H) n))
         (L - fam_kl H) k.
Definition keyed (H : sponge) (L taglen : nat) (k n : list Z) : acry :=
  mkAC (store_at (zeros 64) 0 k) (fam_kl H) 0 L (fam_rb H) taglen (key_state H L taglen k n).

Lemma ltb_t : forall a b, (a < b)%nat -> (a <? b)%nat = true.
Proof. intros. apply Nat.ltb_lt. auto. Qed.
Lemma ltb_f : forall a b, (b <= a)%nat -> (a <? b)%nat = false.
Proof. intros. apply Nat.ltb_ge. auto. Qed.

(** setkey succeeds exactly for the documented lengths, and then the context does not depend on its
    history. *)
Lemma setkey_iff : forall H c k n e, family H (ac_ssize c) ->
  lc_ascon_setkey H c (Some k) n = (0, e) <->
  (length k = fam_kl H /\ (16 <= length n <= length k)%nat /\ (16 <= ac_taglen c <= length k)%nat /\
   e = keyed H (ac_ssize c) (ac_taglen c) k n).
Proof.
  intros H c k n e F. unfold lc_ascon_setkey.
  change (length (match Some k with Some k => k | None => _ end)) with (length k).
  cbv beta iota zeta.
  destruct (length n <? 16)%nat eqn:E1; [split; [discriminate|apply Nat.ltb_lt in E1; lia]|].
  destruct (length k <? length n)%nat eqn:E2; [split; [discriminate|apply Nat.ltb_lt in E2; lia]|].
  apply Nat.ltb_ge in E1, E2. cbn [orb].
  unfold ak_setiv. cbn [ac_taglen lc_ascon_zero zero_ex_key].
  destruct (ac_taglen c <? 16)%nat eqn:E3; [split; [discriminate|apply Nat.ltb_lt in E3; lia]|].
  destruct (length k <? ac_taglen c)%nat eqn:E4; [split; [discriminate|apply Nat.ltb_lt in E4; lia]|].
  apply Nat.ltb_ge in E3, E4. cbn [orb].
  unfold keyed, key_state, fam_kl, fam_rb, fam_iv.
  inversion F as [A B|A B|A B]; subst H; cbn [sp_rate sp_perm AL AK256 AK512].
  - change (0 <? 0) with false. change (0 =? 0) with true. cbv iota beta. unfold al_setiv.
    cbn [sp_rate AL].
    destruct (length k =? 16)%nat eqn:Ek.
    + apply Nat.eqb_eq in Ek. cbn -[le_bytes zeros xor_at store_at skipn asconB Nat.sub Nat.add].
      rewrite Ek, <- B. split.
      * intros X. apply (f_equal snd) in X. cbn [snd] in X. rewrite <- X. refine (conj _ (conj _ (conj _ eq_refl))); lia.
      * intros (_ & _ & _ & ->). reflexivity.
    + apply Nat.eqb_neq in Ek. split; [discriminate|]. intros (X & _). congruence.
  - destruct (length k =? 32)%nat eqn:Ek.
    + apply Nat.eqb_eq in Ek.
      change (1 <? 0) with false. change (1 =? 0) with false. cbv beta iota zeta.
      change (1 <? 0) with false. change (1 =? 0) with false. cbv beta iota zeta.
      cbn [ac_key ac_keylen ac_off ac_ssize ac_roundb ac_taglen ac_st zero_ex_key lc_ascon_zero].
      rewrite Ek, <- B. split.
      * intros X. apply (f_equal snd) in X. cbn [snd] in X. rewrite <- X. refine (conj _ (conj _ (conj _ eq_refl))); lia.
      * intros (_ & _ & _ & ->). reflexivity.
    + apply Nat.eqb_neq in Ek. split; [discriminate|]. intros (X & _). congruence.
  - destruct (length k =? 64)%nat eqn:Ek.
    + apply Nat.eqb_eq in Ek.
      change (1 <? 0) with false. change (1 =? 0) with false. cbv beta iota zeta.
      change (1 <? 0) with false. change (1 =? 0) with false. cbv beta iota zeta.
      cbn [ac_key ac_keylen ac_off ac_ssize ac_roundb ac_taglen ac_st zero_ex_key lc_ascon_zero].
      rewrite Ek, <- B. split.
      * intros X. apply (f_equal snd) in X. cbn [snd] in X. rewrite <- X. refine (conj _ (conj _ (conj _ eq_refl))); lia.
      * intros (_ & _ & _ & ->). reflexivity.
    + apply Nat.eqb_neq in Ek. split; [discriminate|]. intros (X & _). congruence.
Qed.

Lemma length_key_state : forall H L t k n, family H L -> length (key_state H L t k n) = L.
Proof.
  intros H L t k n F. destruct (family_facts H L F) as (A & B & C & D & E).
  unfold key_state. rewrite length_xor_at, E; auto.
  rewrite !length_xor_at. unfold set_word0. rewrite app_length, length_le_bytes, skipn_length, length_zeros. lia.
Qed.
Lemma the_key_keyed : forall H L t k n, family H L -> length k = fam_kl H -> the_key (keyed H L t k n) = k.
Proof.
  intros H L t k n F Hk. unfold the_key, keyed. cbn [ac_keylen ac_key].
  assert (Hl : (length k <= 64)%nat) by (rewrite Hk; inversion F; vm_compute; lia).
  unfold store_at. rewrite (firstn_all2 k) by (rewrite length_zeros; lia).
  change (firstn 0 (zeros 64)) with (@nil Z). rewrite app_nil_l, <- Hk. apply firstn_length_app.
Qed.

Lemma keyed_wf : forall H L t k n, family H L -> wf H L (fam_rb H) (keyed H L t k n).
Proof. intros. split; [|split]; simpl; auto using length_key_state. lia. Qed.
Lemma length_aad_loop : forall H L f rb s aad, family H L -> length s = L ->
  length (fst (aad_loop H f rb s aad)) = L.
Proof.
  intros H L f rb s aad F. destruct (family_facts H L F) as (A & B & C & D & E).
  revert s aad. induction f as [|f IH]; intros s aad Hs; [exact Hs|]. cbn [aad_loop].
  destruct (sp_rate H <=? length aad)%nat; [|exact Hs]. apply IH. apply E. rewrite length_xor_at. exact Hs.
Qed.
Lemma aad_wf : forall H L rb c aad, family H L -> wf H L rb c -> wf H L rb (lc_ascon_aad H c aad).
Proof.
  intros H L rb c aad F (A & B & C). unfold lc_ascon_aad. destruct aad as [|a aad]; [exact (conj A (conj B C))|].
  assert (X := length_aad_loop H L (length (a :: aad)) (ac_roundb c) (ac_st c) (a :: aad) F A).
  destruct (aad_loop H _ _ _ _) as [s rest]. simpl in X.
  destruct (family_facts H L F) as (_ & _ & _ & _ & E).
  split; [|split; auto]. simpl. rewrite length_xor_at. apply E. unfold add_padbyte.
  rewrite !length_xor_at. exact X.
Qed.

(** What lc_ascon_aad leaves alone. *)
Lemma aad_same : forall H c aad, let c' := lc_ascon_aad H c aad in
  ac_key c' = ac_key c /\ ac_keylen c' = ac_keylen c /\ ac_taglen c' = ac_taglen c /\
  ac_ssize c' = ac_ssize c /\ ac_off c' = ac_off c /\ ac_roundb c' = ac_roundb c.
Proof.
  intros H c aad. unfold lc_ascon_aad. destruct aad; [simpl; auto 10|].
  destruct (aad_loop _ _ _ _ _). simpl. auto 10.
Qed.

Lemma finalization_some : forall H c t, (sp_rate H + ac_keylen c <= length (ac_st c))%nat ->
  exists c' tag, finalization H c t = Some (c', tag).
Proof.
  intros H c t Hl. unfold finalization. rewrite ltb_f by lia. eauto.
Qed.

(** * C30: round trip *)
Lemma memcmp_refl : forall p1 p2 a, bytes a -> lc_memcmp_secure p1 a p2 a = 0.
Proof. intros. apply memcmp_spec; auto. Qed.

(** The tag is a string of bytes when the state is. *)
Definition bstate (c : acry) : Prop := bytes (ac_st c) /\ bytes (ac_key c).
Transparent asconB.
Lemma asconB_bytes : forall r s, length s = 40%nat -> bytes s -> bytes (asconB r s).
Proof.
  intros r s Hl Hs.
  assert (X : In r [6; 8; 12]%nat -> bytes (asconB r s)) by (intros I; exact (proj2 (asconB_st40 r s I (conj Hl Hs)))).
  destruct (in_dec Nat.eq_dec r [6; 8; 12]%nat) as [I|I]; auto.
  assert (E : ascon_c_permutation r (words5_of_bytes s) = words5_of_bytes s).
  { do 13 (destruct r as [|r]; [try reflexivity; exfalso; apply I; simpl; auto|]). reflexivity. }
  unfold asconB. rewrite E. unfold bytes_of_words. apply Forall_forall. intros x Hx.
  apply in_flat_map in Hx. destruct Hx as (w & _ & Hx).
  assert (B := bytes_le_bytes 8 w). unfold bytes in B. rewrite Forall_forall in B. apply B. exact Hx.
Qed.
Opaque asconB.
Lemma family_bytes : forall H L, family H L -> forall r s, length s = L -> bytes s -> bytes (sp_perm H r s).
Proof.
  intros H L F r s Hl Hs. destruct F; cbn [sp_perm AL AK256 AK512].
  - apply asconB_bytes; auto.
  - exact (proj2 (permB_st200 s (conj Hl Hs))).
  - exact (proj2 (permB_st200 s (conj Hl Hs))).
Qed.

Section Bytes.
Variables (H : sponge) (L : nat).
Hypothesis F : family H L.
Let rate := sp_rate H.

Lemma ebytes_bytes : forall rb pt s off, length s = L -> (off <= rate)%nat -> bytes s -> bytes pt ->
  let '(s1, o1, c) := ebytes H rb s off pt in bytes s1 /\ bytes c.
Proof.
  intros rb. destruct (family_facts H L F) as (A & B & C & D & E).
  induction pt as [|x pt IH]; intros s off Hs Ho Hb Hp.
  - simpl. split; [auto|constructor].
  - cbn [ebytes]. assert (Hx := Forall_inv Hp). assert (Hp' := Forall_inv_tail Hp).
    set (s0 := if (off =? sp_rate H)%nat then sp_perm H rb s else s).
    set (o0 := if (off =? sp_rate H)%nat then 0%nat else off).
    assert (Hs0 : length s0 = L) by (unfold s0; destruct (off =? sp_rate H)%nat; auto).
    assert (Hb0 : bytes s0) by (unfold s0; destruct (off =? sp_rate H)%nat; auto; apply (family_bytes H L); auto).
    assert (Ho0 : (o0 < sp_rate H)%nat) by (unfold o0; destruct (Nat.eqb_spec off (sp_rate H)); unfold rate in *; lia).
    assert (Hb1 : bytes (xor_at s0 o0 [x])) by (apply bytes_xor_at; auto; constructor; auto).
    specialize (IH (xor_at s0 o0 [x]) (S o0) ltac:(rewrite length_xor_at; auto) ltac:(unfold rate; lia) Hb1 Hp').
    destruct (ebytes H rb (xor_at s0 o0 [x]) (S o0) pt) as [[s1 o1] c]. destruct IH as [I1 I2].
    split; [exact I1|]. constructor; [|exact I2].
    unfold bytes in Hb1. rewrite Forall_forall in Hb1. apply Hb1. apply nth_In. rewrite length_xor_at. lia.
Qed.

Lemma aad_loop_bytes : forall f rb s aad, length s = L -> bytes s -> bytes aad ->
  bytes (fst (aad_loop H f rb s aad)) /\ bytes (snd (aad_loop H f rb s aad)).
Proof.
  destruct (family_facts H L F) as (A & B & C & D & E).
  induction f as [|f IH]; intros rb s aad Hs Hb Ha; [simpl; auto|]. cbn [aad_loop].
  destruct (sp_rate H <=? length aad)%nat; [|simpl; auto].
  apply IH.
  - apply E. rewrite length_xor_at. exact Hs.
  - apply (family_bytes H L F); [rewrite length_xor_at; exact Hs|]. apply bytes_xor_at; auto using bytes_firstn.
  - apply bytes_skipn. exact Ha.
Qed.
Lemma byte1 : bytes [0x01]. Proof. constructor; [unfold byte; lia|constructor]. Qed.
Lemma byte80 : bytes [0x80]. Proof. constructor; [unfold byte; lia|constructor]. Qed.
Lemma aad_bytes : forall c aad, length (ac_st c) = L -> bytes (ac_st c) -> bytes aad ->
  bytes (ac_st (lc_ascon_aad H c aad)).
Proof.
  intros c aad Hs Hb Ha. unfold lc_ascon_aad. destruct aad as [|a aad]; [exact Hb|].
  assert (X := length_aad_loop H L (length (a :: aad)) (ac_roundb c) (ac_st c) (a :: aad) F Hs).
  assert (Y := aad_loop_bytes (length (a :: aad)) (ac_roundb c) (ac_st c) (a :: aad) Hs Hb Ha).
  destruct (aad_loop H _ _ _ _) as [s rest]. cbn [fst snd] in X, Y. destruct Y as [Y1 Y2].
  cbn [ac_st set_st]. apply bytes_xor_at; [|exact byte80].
  apply (family_bytes H L F).
  - unfold add_padbyte. rewrite !length_xor_at. exact X.
  - unfold add_padbyte. apply bytes_xor_at; [|exact byte1]. apply bytes_xor_at; auto.
Qed.
Lemma key_state_bytes : forall t k n, bytes k -> bytes n -> bytes (key_state H L t k n).
Proof.
  intros t k n Hk Hn. destruct (family_facts H L F) as (A & B & C & D & E).
  unfold key_state. apply bytes_xor_at; auto. apply (family_bytes H L F).
  - rewrite !length_xor_at. unfold set_word0. rewrite app_length, length_le_bytes, skipn_length, length_zeros. lia.
  - apply bytes_xor_at; auto. apply bytes_xor_at; auto. unfold set_word0.
    apply bytes_app; [apply bytes_le_bytes|apply bytes_skipn, bytes_zeros].
Qed.
Lemma finalization_bytes : forall c t c' tag, length (ac_st c) = L -> bytes (ac_st c) -> bytes (ac_key c) ->
  ac_ssize c = L -> (t <= L)%nat ->
  finalization H c t = Some (c', tag) -> bytes tag /\ length tag = t.
Proof.
  intros c t c' tag Hs Hb Hk HL Ht Hf. unfold finalization in Hf.
  destruct (_ <? _)%nat; [discriminate|]. injection Hf as _ <-.
  destruct (family_facts H L F) as (A & B & C & D & E).
  assert (Hl : length (sp_perm H 12 (xor_at (ac_st c) (sp_rate H) (the_key c))) = L)
    by (apply E; rewrite length_xor_at; exact Hs).
  split.
  - unfold slice. apply bytes_firstn, bytes_skipn, bytes_xor_at; [|apply bytes_firstn; auto].
    apply (family_bytes H L F); [rewrite length_xor_at; exact Hs|].
    apply bytes_xor_at; auto. apply bytes_firstn. exact Hk.
  - apply length_slice. rewrite length_xor_at, Hl. lia.
Qed.

(** The state a context is in between its key set-up and its finalisation. *)
Definition live (c : acry) : Prop :=
  length (ac_st c) = L /\ (ac_off c <= rate)%nat /\ ac_roundb c = fam_rb H /\
  ac_ssize c = L /\ bytes (ac_st c) /\ bytes (ac_key c) /\
  (16 <= ac_taglen c <= ac_keylen c)%nat /\ ac_keylen c = fam_kl H.

Lemma live_keyed : forall t k n, bytes k -> bytes n -> length k = fam_kl H -> (16 <= t <= length k)%nat ->
  live (keyed H L t k n).
Proof.
  intros t k n Hk Hn Hl Ht.
  assert (W := keyed_wf H L t k n F). destruct W as (W1 & W2 & W3).
  refine (conj W1 (conj W2 (conj W3 (conj eq_refl (conj _ (conj _ (conj _ eq_refl))))))).
  - apply key_state_bytes; auto.
  - cbn [ac_key keyed]. unfold store_at. apply bytes_app; [constructor|].
    apply bytes_app; [apply bytes_firstn; auto|apply bytes_skipn, bytes_zeros].
  - cbn [ac_taglen ac_keylen keyed]. rewrite <- Hl. exact Ht.
Qed.
Lemma live_aad : forall c aad, live c -> bytes aad -> live (lc_ascon_aad H c aad).
Proof.
  intros c aad (A1 & A2 & A3 & A4 & A5 & A6 & A7 & A8) Ha.
  destruct (aad_same H c aad) as (B1 & B2 & B3 & B4 & B5 & B6).
  destruct (aad_wf H L (fam_rb H) c aad F (conj A1 (conj A2 A3))) as (C1 & C2 & C3).
  unfold live. rewrite B1, B2, B3, B4, B5, B6.
  refine (conj C1 (conj A2 (conj A3 (conj A4 (conj _ (conj A6 (conj A7 A8))))))).
  apply aad_bytes; auto.
Qed.
Lemma live_updates : forall c pts, live c -> Forall bytes pts ->
  live (fst (enc_updates H c pts)) /\ Forall bytes [concat (snd (enc_updates H c pts))] /\
  ac_taglen (fst (enc_updates H c pts)) = ac_taglen c.
Proof.
  intros c pts (A1 & A2 & A3 & A4 & A5 & A6 & A7 & A8) Hp.
  destruct (family_facts H L F) as (Q1 & Q2 & Q3 & Q4 & Q5).
  assert (E := enc_updates_bytes H L (fam_rb H) Q1 Q2 Q5 pts c (conj A1 (conj A2 A3))).
  destruct (enc_updates H c pts) as [c' cts].
  assert (X := ebytes_inv H L (fam_rb H) Q1 Q2 Q5 (concat pts) (ac_st c) (ac_off c) A1 A2).
  assert (Y := ebytes_bytes (fam_rb H) (concat pts) (ac_st c) (ac_off c) A1 A2 A5).
  destruct (ebytes H (fam_rb H) (ac_st c) (ac_off c) (concat pts)) as [[s o] ct].
  destruct E as (-> & E2 & E3). destruct X as (X1 & X2 & X3 & X4).
  assert (Hb : bytes (concat pts)).
  { clear - Hp. induction Hp; simpl; [constructor|apply bytes_app; auto]. }
  destruct (Y Hb) as [Y1 Y2]. cbn [fst snd]. rewrite E2.
  split; [|split; [repeat constructor; auto|reflexivity]].
  exact (conj X2 (conj X3 (conj A3 (conj A4 (conj Y1 (conj A6 (conj A7 A8))))))).
Qed.
Lemma fam_room : (rate + fam_kl H <= L)%nat.
Proof. unfold rate. destruct F; vm_compute; lia. Qed.

(** enc_final on a live context with a tag buffer of the right length writes the whole tag. *)
Lemma enc_final_live : forall c buf, live c -> length buf = ac_taglen c ->
  exists c' tag, lc_ascon_enc_final H c buf = Some (c', tag) /\ bytes tag /\ length tag = ac_taglen c /\
  (forall buf', length buf' = ac_taglen c -> lc_ascon_enc_final H c buf' = Some (c', tag)).
Proof.
  intros c buf (A1 & A2 & A3 & A4 & A5 & A6 & A7 & A8) Hl.
  destruct (family_facts H L F) as (Q1 & Q2 & Q3 & Q4 & Q5).
  assert (R := fam_room). unfold rate in R.
  unfold lc_ascon_enc_final. cbn [ac_taglen set_st ac_st ac_off ac_roundb].
  assert (Ls : length (sp_perm H (ac_roundb c) (ac_st c)) = L) by (apply Q5; exact A1).
  set (c1 := set_st (set_st c (sp_perm H (ac_roundb c) (ac_st c)))
              (add_padbyte H (sp_perm H (ac_roundb c) (ac_st c)) (ac_off c))).
  assert (L1 : length (ac_st c1) = L) by (unfold c1, add_padbyte; cbn [ac_st set_st]; rewrite length_xor_at; exact Ls).
  destruct (finalization_some H c1 (length buf)) as (c' & tag & Ef).
  { rewrite L1. cbn [ac_keylen c1 set_st]. rewrite A8. exact R. }
  exists c', tag. rewrite Hl, Nat.eqb_refl. cbn [negb]. rewrite Hl in Ef.
  split; [exact Ef|].
  destruct (finalization_bytes c1 (ac_taglen c) c' tag) as [B1 B2]; auto.
  - unfold c1, add_padbyte. cbn [ac_st set_st]. apply bytes_xor_at; [|exact byte1].
    apply (family_bytes H L F); auto.
  - rewrite A8 in A7. unfold rate in R. lia.
  - split; [exact B1|]. split; [exact B2|]. intros buf' Hb'. rewrite Hb', Nat.eqb_refl. exact Ef.
Qed.

(** C34 for the Ascon family. *)
Lemma dec_final_live : forall c tag buf p1 p2, live c -> bytes tag -> length buf = ac_taglen c ->
  (length tag <> ac_taglen c -> lc_ascon_dec_final H p1 p2 c tag = Some (- EINVAL, c)) /\
  (length tag = ac_taglen c -> exists c' t, lc_ascon_enc_final H c buf = Some (c', t) /\
     (tag = t -> lc_ascon_dec_final H p1 p2 c tag = Some (0, c')) /\
     (tag <> t -> lc_ascon_dec_final H p1 p2 c tag = Some (- EBADMSG, c'))).
Proof.
  intros c tag buf p1 p2 Hlv Hb Hbuf. split.
  - intros Hl. unfold lc_ascon_dec_final. apply Nat.eqb_neq in Hl. rewrite Hl. reflexivity.
  - intros Hl. destruct (enc_final_live c buf Hlv Hbuf) as (c' & t & E & B1 & B2 & B3).
    exists c', t. split; [exact E|].
    assert (Hd : lc_ascon_dec_final H p1 p2 c tag =
                 Some (if lc_memcmp_secure p1 t p2 tag =? 0 then 0 else - EBADMSG, c')).
    { specialize (B3 tag Hl). unfold lc_ascon_enc_final in B3. unfold lc_ascon_dec_final.
      cbn [ac_taglen set_st] in B3. rewrite Hl, Nat.eqb_refl in *. cbn [negb] in *. rewrite B3. reflexivity. }
    rewrite Hd. destruct (memcmp_spec p1 t p2 tag B1 Hb) as [M1 M2].
    split; intros Ht.
    + assert (Z : lc_memcmp_secure p1 t p2 tag = 0) by (apply M1; auto). rewrite Z. reflexivity.
    + destruct M2 as [M2|M2].
      * exfalso. apply Ht. symmetry. apply M1. exact M2.
      * rewrite M2. reflexivity.
Qed.

(** C30 for the Ascon family: from any live context. *)
Lemma roundtrip_live : forall c pts cts buf ip p1 p2, live c -> Forall bytes pts -> length buf = ac_taglen c ->
  let '(e, out) := enc_updates H c pts in
  exists e' tag, lc_ascon_enc_final H e buf = Some (e', tag) /\ length (concat out) = length (concat pts) /\
  (concat cts = concat out ->
   exists dpts, dec_updates H c ip cts = Some (e, dpts) /\ concat dpts = concat pts /\
                lc_ascon_dec_final H p1 p2 e tag = Some (0, e')).
Proof.
  intros c pts cts buf ip p1 p2 Hlv Hp Hbuf.
  destruct (live_updates c pts Hlv Hp) as (V1 & V2 & V3).
  assert (Hlv' := Hlv). destruct Hlv' as (A1 & A2 & A3 & _).
  destruct (family_facts H L F) as (Q1 & Q2 & Q3 & Q4 & Q5).
  assert (S := enc_dec_stream H L (fam_rb H) Q1 Q2 Q5 c pts cts ip (conj A1 (conj A2 A3)) (or_introl Q3)).
  assert (E := enc_updates_bytes H L (fam_rb H) Q1 Q2 Q5 pts c (conj A1 (conj A2 A3))).
  assert (X := ebytes_inv H L (fam_rb H) Q1 Q2 Q5 (concat pts) (ac_st c) (ac_off c) A1 A2).
  destruct (enc_updates H c pts) as [e out]. cbn [fst snd] in V1, V3.
  destruct (ebytes H (fam_rb H) (ac_st c) (ac_off c) (concat pts)) as [[s o] ct].
  destruct E as (_ & E2 & _). destruct X as (_ & _ & _ & X4).
  rewrite <- V3 in Hbuf.
  destruct (enc_final_live e buf V1 Hbuf) as (e' & tag & T1 & T2 & T3 & T4).
  exists e', tag. split; [exact T1|]. split; [rewrite E2; exact X4|]. intros Hc.
  destruct (S Hc) as (dpts & D1 & D2). exists dpts. split; [exact D1|]. split; [exact D2|].
  destruct (dec_final_live e tag buf p1 p2 V1 T2 Hbuf) as [_ G].
  destruct (G T3) as (c2 & t2 & G1 & G2 & _). rewrite T1 in G1. injection G1 as <- <-.
  apply G2. reflexivity.
Qed.

(** * C32: what the tag is computed from *)
(** The blocks the tag depends on and the position of the padding bit. *)
Definition auth_ct (r : nat) (cs : list (list Z)) (t : list Z) : list (list Z) * nat :=
  match cs, t with
  | [], [] => ([zeros r], 0%nat)
  | _, [] => (cs, 0%nat)
  | _, _ => (cs ++ [t ++ zeros (r - length t)], length t)
  end.
Definition auth_msg (r : nat) (m : list Z) : list (list Z) * nat :=
  auth_ct r (full_chunks r m) (tail_chunk r m).

Lemma xor_at_fill : forall s t n, xor_at s 0 (t ++ zeros n) = xor_at s 0 t.
Proof.
  intros s t n. rewrite xor_at_app. apply xor_at_zeros.
Qed.

Definition absorb_blk (rb : nat) (s b : list Z) : list Z := sp_perm H rb (xor_at s 0 b).
Lemma ebytes_auth_ct : forall rb cs t s, length s = L -> Forall (fun c => length c = rate) cs ->
  (length t < rate)%nat ->
  let '(s1, o1, _) := ebytes H rb s 0 (concat cs ++ t) in
  sp_perm H rb s1 = fold_left (absorb_blk rb) (fst (auth_ct rate cs t)) s /\
  (if (o1 =? rate)%nat then 0%nat else o1) = snd (auth_ct rate cs t).
Proof.
  intros rb. destruct (family_facts H L F) as (Q1 & Q2 & Q3 & Q4 & Q5).
  induction cs as [|c cs IH]; intros t s Hs Hcs Ht.
  - cbn [concat app]. rewrite (ebytes_run H L rb Q1 Q2) by (fold rate; auto; lia).
    cbn [auth_ct]. destruct t as [|b t].
    + cbn [fst snd fold_left length Nat.add]. unfold absorb_blk. rewrite xor_at_nil, xor_at_zeros.
      split; [reflexivity|]. destruct (0 =? rate)%nat; reflexivity.
    + set (T := b :: t) in *. cbn [fst snd fold_left app]. unfold absorb_blk. rewrite xor_at_fill.
      split; [reflexivity|]. rewrite Nat.add_0_l.
      assert (X : (length T =? rate)%nat = false) by (apply Nat.eqb_neq; lia). rewrite X. reflexivity.
  - assert (Hc := Forall_inv Hcs). assert (Hcs' := Forall_inv_tail Hcs). cbv beta in Hc. cbn [concat]. rewrite <- app_assoc.
    specialize (IH t (sp_perm H rb (xor_at s 0 c)) ltac:(apply Q5; rewrite length_xor_at; exact Hs) Hcs' Ht).
    destruct (list_eq_dec Z.eq_dec (concat cs ++ t) []) as [En|En].
    + rewrite En, app_nil_r. rewrite (ebytes_run H L rb Q1 Q2) by (auto; rewrite Hc; apply Nat.le_refl).
      apply app_eq_nil in En. destruct En as [En ->].
      assert (cs = []).
      { destruct cs as [|c2 cs]; [reflexivity|]. assert (Hc2 := Forall_inv Hcs'). cbv beta in Hc2.
        cbn [concat] in En. apply app_eq_nil in En. destruct En as [-> _]. simpl in Hc2.
        unfold rate in Hc2. lia. }
      subst cs. cbn [auth_ct fst snd fold_left]. unfold absorb_blk. split; [reflexivity|].
      rewrite Nat.add_0_l, Hc, Nat.eqb_refl. reflexivity.
    + rewrite (ebytes_block H L rb Q1 Q2 c (concat cs ++ t) s Hs Hc En).
      destruct (ebytes H rb (sp_perm H rb (xor_at s 0 c)) 0 (concat cs ++ t)) as [[s2 o2] ct].
      destruct IH as [I1 I2]. rewrite I1, I2.
      destruct cs as [|c2 cs], t as [|b t]; try (exfalso; apply En; reflexivity);
        cbn [auth_ct fst snd fold_left app]; auto.
Qed.
Lemma ebytes_auth : forall rb m s, length s = L ->
  let '(s1, o1, _) := ebytes H rb s 0 m in
  sp_perm H rb s1 = fold_left (absorb_blk rb) (fst (auth_msg rate m)) s /\
  (if (o1 =? rate)%nat then 0%nat else o1) = snd (auth_msg rate m).
Proof.
  intros rb m s Hs. destruct (family_facts H L F) as (Q1 & _).
  assert (X := ebytes_auth_ct rb (full_chunks rate m) (tail_chunk rate m) s Hs
                (full_chunks_len rate m Q1) (tail_chunk_lt rate m Q1)).
  rewrite <- (chunks_app rate m Q1) in X. exact X.
Qed.
End Bytes.

(** The authenticated sequence determines the message, except that the empty message and the message of
    one zero block share theirs. *)
Lemma auth_ct_inj : forall r m1 m2, (0 < r)%nat -> m1 <> [] -> m2 <> [] ->
  auth_msg r m1 = auth_msg r m2 -> m1 = m2.
Proof.
  intros r m1 m2 Hr H1 H2 E. unfold auth_msg in E.
  assert (X1 := chunks_app r m1 Hr). assert (X2 := chunks_app r m2 Hr).
  rewrite X1 in H1. rewrite X2 in H2. rewrite X1, X2. clear X1 X2.
  assert (T1 := tail_chunk_lt r m1 Hr). assert (T2 := tail_chunk_lt r m2 Hr).
  set (c1 := full_chunks r m1) in *. set (t1 := tail_chunk r m1) in *.
  set (c2 := full_chunks r m2) in *. set (t2 := tail_chunk r m2) in *.
  assert (N : forall cs t, concat cs ++ t <> [] -> (length t < r)%nat ->
            auth_ct r cs t = match t with [] => (cs, 0%nat) | _ => (cs ++ [t ++ zeros (r - length t)], length t) end).
  { intros cs t Hn _. destruct cs, t; try reflexivity. simpl in Hn. congruence. }
  rewrite (N c1 t1 H1 T1), (N c2 t2 H2 T2) in E.
  destruct t1 as [|a1 t1'] eqn:E1, t2 as [|a2 t2'] eqn:E2.
  - injection E as ->. reflexivity.
  - injection E as _ E. discriminate.
  - injection E as _ E. discriminate.
  - injection E as E El. 
    apply app_inj_tail in E. destruct E as [-> E].
    change (a1 :: t1' ++ zeros (r - S (length t1')) = a2 :: t2' ++ zeros (r - S (length t2'))) in E.
    injection E as -> E. apply app_eq_split in E; [|exact El]. destruct E as [-> _]. reflexivity.
Qed.
Lemma auth_msg_iff : forall r m1 m2, (0 < r)%nat ->
  auth_msg r m1 = auth_msg r m2 <->
  (m1 = m2 \/ (m1 = [] /\ m2 = zeros r) \/ (m1 = zeros r /\ m2 = [])).
Proof.
  intros r m1 m2 Hr.
  assert (Zr : auth_msg r (zeros r) = ([zeros r], 0%nat)).
  { unfold auth_msg. rewrite <- (app_nil_r (zeros r)) at 1 2.
    destruct (full_chunks_unique r [zeros r] [] Hr) as [A B].
    - constructor; [apply length_zeros|constructor].
    - exact Hr.
    - cbn [concat] in A, B. rewrite app_nil_r in A, B. rewrite A, B. reflexivity. }
  assert (Z0 : auth_msg r [] = ([zeros r], 0%nat)).
  { unfold auth_msg. destruct (full_chunks_small r [] Hr) as [A B]; [simpl; lia|]. rewrite A, B. reflexivity. }
  split.
  - intros E.
    destruct m1 as [|a1 m1], m2 as [|a2 m2]; auto.
    + right. left. split; [reflexivity|]. apply auth_ct_inj with r; auto; try discriminate.
      * destruct r; [lia|]. simpl. discriminate.
      * rewrite <- E, Z0, Zr. reflexivity.
    + right. right. split; [|reflexivity]. apply auth_ct_inj with r; auto; try discriminate.
      * destruct r; [lia|]. simpl. discriminate.
      * rewrite E, Z0, Zr. reflexivity.
    + left. apply auth_ct_inj with r; auto; discriminate.
  - intros [->|[[-> ->]|[-> ->]]]; rewrite ?Z0, ?Zr; reflexivity.
Qed.
