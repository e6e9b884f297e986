(** Properties C30, C31, C32 and the Ascon parts of C34, C35, C36. [AL] is Ascon-AEAD128, [AK256] and [AK512] are
    Ascon-Keccak over SHA3-256 and SHA3-512 ([family H L]: L is the state size the context macros set). *)
From Verif Require Import Bytes Words AsconSpec AsconModel AsconPerm KeccakBytes UtilModel UtilProof
  AeadAsconModel AeadAsconSpec AeadAsconProof AeadAsconTop AeadAsconNist.

Definition range (a n : nat) : list Z := map Z.of_nat (seq a n).

(** ** C30. Both sides call setkey on a context with any previous content, add the same AAD, and cut the data into
    update calls in any two ways. setkey succeeds exactly for the documented lengths. *)
Theorem C30_roundtrip : forall H c d k n aad pts buf, family H (ac_ssize c) -> ac_ssize d = ac_ssize c ->
  ac_taglen d = ac_taglen c -> bytes k -> bytes n -> bytes aad -> Forall bytes pts ->
  length k = fam_kl H -> (16 <= length n <= length k)%nat -> (16 <= ac_taglen c <= length k)%nat ->
  length buf = ac_taglen c ->
  exists e, lc_ascon_setkey H c (Some k) n = (0, e) /\ lc_ascon_setkey H d (Some k) n = (0, e) /\
  let '(e1, out) := enc_updates H (lc_ascon_aad H e aad) pts in
  exists e2 tag, lc_aead_enc_final H e1 buf = Some (0, e2, tag) /\
  length (concat out) = length (concat pts) /\ length tag = ac_taglen c /\
  forall cts inplace p1 p2, concat cts = concat out ->
    exists d1 dpts, dec_updates H (lc_ascon_aad H e aad) inplace cts = Some (d1, dpts) /\
      concat dpts = concat pts /\ exists d2, lc_ascon_dec_final H p1 p2 d1 tag = Some (0, d2).
Proof.
  intros H c d k n aad pts buf F Hs Ht Bk Bn Ba Bp Lk Ln Lt Lb.
  assert (F' := F). rewrite <- Hs in F'.
  set (e := keyed H (ac_ssize c) (ac_taglen c) k n).
  assert (S1 : lc_ascon_setkey H c (Some k) n = (0, e)).
  { apply (setkey_iff H c k n e F). exact (conj Lk (conj Ln (conj Lt eq_refl))). }
  assert (S2 : lc_ascon_setkey H d (Some k) n = (0, e)).
  { apply (setkey_iff H d k n e F'). rewrite Hs, Ht. exact (conj Lk (conj Ln (conj Lt eq_refl))). }
  exists e. split; [exact S1|]. split; [exact S2|].
  assert (V := live_keyed H (ac_ssize c) F (ac_taglen c) k n Bk Bn Lk Lt). fold e in V.
  assert (V1 := live_aad H (ac_ssize c) F e aad V Ba).
  assert (T : ac_taglen (lc_ascon_aad H e aad) = ac_taglen c).
  { destruct (aad_same H e aad) as (_ & _ & X & _). rewrite X. reflexivity. }
  assert (R := fun cts ip p1 p2 => roundtrip_live H (ac_ssize c) F (lc_ascon_aad H e aad) pts cts buf ip p1 p2 V1 Bp
     ltac:(rewrite T; exact Lb)).
  destruct (live_updates H (ac_ssize c) F _ pts V1 Bp) as (W1 & W2 & W3).
  destruct (enc_updates H (lc_ascon_aad H e aad) pts) as [e1 out]. cbn [fst snd] in W1, W3.
  destruct (enc_final_live H (ac_ssize c) F e1 buf W1 ltac:(rewrite W3, T; exact Lb)) as (e2 & tag & E1 & E2 & E3 & E4).
  exists e2, tag. unfold lc_aead_enc_final. rewrite E1. split; [reflexivity|].
  destruct (R out false 0 0) as (_ & _ & _ & R2 & _).
  split; [exact R2|]. split; [rewrite E3, W3; exact T|].
  intros cts ip p1 p2 Hc. destruct (R cts ip p1 p2) as (e3 & tag3 & R1 & _ & R3).
  rewrite E1 in R1. assert (Et : tag3 = tag) by (injection R1; intros; congruence). subst tag3.
  destruct (R3 Hc) as (dpts & D1 & D2 & D3). exists e1, dpts. split; [exact D1|]. split; [exact D2|].
  exists e3. exact D3.
Qed.
Print Assumptions C30_roundtrip.

(** The documented lengths are the only ones: setkey returns 0 for no others, and a context that went through a
    successful setkey does not depend on its history. *)
Theorem C30_setkey : forall H c k n e, family H (ac_ssize c) ->
  (lc_ascon_setkey H c (Some k) n = (0, e) <->
   length k = fam_kl H /\ (16 <= length n <= length k)%nat /\ (16 <= ac_taglen c <= length k)%nat /\
   e = keyed H (ac_ssize c) (ac_taglen c) k n).
Proof. exact setkey_iff. Qed.
Print Assumptions C30_setkey.

(** Example: the self test of ascon_keccak.c [60-115]: 64 bytes of data and AAD, 16 byte nonce and tag. *)
Definition ak_c0 := ak_ctx 16 (zeros 64) 0 0 0 (zeros 200).
Definition ak_k := range 0x80 32.
Definition ak_n := range 0x20 16.
Example C30_ex_lengths : family AK256 (ac_ssize ak_c0) /\ length ak_k = fam_kl AK256 /\
  (16 <= length ak_n <= length ak_k)%nat /\ (16 <= ac_taglen ak_c0 <= length ak_k)%nat.
Proof. split; [exact fam_ak256|]. split; [reflexivity|]. split; vm_compute; lia. Qed.
Example C30_ex_tag :
  option_map (fun x => snd x) (lc_aead_encrypt AK256 (snd (lc_ascon_setkey AK256 ak_c0 (Some ak_k) ak_n)) (range 0 64) (range 0 64) (zeros 16)) =
  Some [0x68; 0x12; 0x06; 0xf1; 0x94; 0x58; 0x7d; 0xf2; 0xf8; 0x1e; 0x86; 0x35; 0x46; 0x08; 0xaf; 0xdd].
Proof. vm_compute. reflexivity. Qed.
(** Two different cuts of 64 bytes, one through the middle of a block. *)
Example C30_ex_cut :
  let e := lc_ascon_aad AK256 (snd (lc_ascon_setkey AK256 ak_c0 (Some ak_k) ak_n)) [1; 2; 3] in
  let '(e1, out) := enc_updates AK256 e [range 0 7; range 7 140; []; range 147 1] in
  match lc_aead_enc_final AK256 e1 (zeros 16) with
  | Some (r, _, tag) =>
    match dec_updates AK256 e true [firstn 100 (concat out); skipn 100 (concat out)] with
    | Some (d1, dp) => r = 0 /\ concat dp = range 0 148 /\ option_map fst (lc_ascon_dec_final AK256 0 0 d1 tag) = Some 0 /\
                       option_map fst (lc_ascon_dec_final AK256 0 0 d1 (zeros 16)) = Some (-74)
    | None => False
    end
  | None => False
  end.
Proof. vm_compute. repeat split. Qed.

(** ** C31 *)
(** Refuted: with a 16 byte message and no associated data, and with associated data and the empty message, the tag is
    not the one of SP 800-232 (the code leaves out the domain separation bit when there is no AAD, and applies the
    permutation once more to the padded last block; the ciphertext of the second case is right). *)
Ltac st40_tac := split; [reflexivity|unfold bytes; repeat (constructor; [unfold byte; lia|]); constructor].
Ltac step8 := match goal with |- context [p8 ?x] =>
    let v := eval vm_compute in x in
    let E := fresh in assert (E : p8 x = asconB 8 v) by (change x with v; apply p8_asconB; st40_tac);
    rewrite E; clear E;
    let w := eval vm_compute in (asconB 8 v) in
    let E := fresh in assert (E : asconB 8 v = w) by (vm_compute; reflexivity); rewrite E; clear E end.
Ltac step12 := match goal with |- context [p12 ?x] =>
    let v := eval vm_compute in x in
    let E := fresh in assert (E : p12 x = asconB 12 v) by (change x with v; apply p12_asconB; st40_tac);
    rewrite E; clear E;
    let w := eval vm_compute in (asconB 12 v) in
    let E := fresh in assert (E : asconB 12 v = w) by (vm_compute; reflexivity); rewrite E; clear E end.
Definition tag_of (r : option (Z * acry * list Z * list Z)) : list Z := match r with Some (_, _, _, t) => t | None => [] end.
Definition k16 := range 0 16.
Definition al_c0 := al_ctx (zeros 64) 0 0 0 (zeros 40).
Definition al_enc (A M : list Z) := lc_aead_encrypt AL (snd (lc_ascon_setkey AL al_c0 (Some k16) k16)) M A (zeros 16).
(** The definition at key = nonce = 00..0f: no data at all (Count 1 of the NIST known answer file). *)
Lemma spec_case1 : snd (ASCON_AEAD128 k16 k16 [] []) =
  [0x44; 0x27; 0xd6; 0x4b; 0x8e; 0x1e; 0x14; 0x51; 0xfc; 0x44; 0x59; 0x60; 0xf0; 0x83; 0x9b; 0xb0].
Proof.
  unfold ASCON_AEAD128. unfold aead_init. cbv zeta. step12.
  set (s := aead_ad _ _). vm_compute in s. subst s.
  set (s := aead_pt _ _). vm_compute in s. subst s. cbv beta iota. cbn [snd].
  unfold aead_tag. cbv zeta. step12. vm_compute. reflexivity.
Qed.
(** Associated data present, one byte message. *)
Lemma spec_case2 : ASCON_AEAD128 k16 k16 [0] [0] =
  ([0x25], [235; 75; 112; 14; 212; 172; 133; 23; 220; 186; 32; 246; 115; 41; 34; 48]).
Proof.
  unfold ASCON_AEAD128. unfold aead_init. cbv zeta. step12.
  unfold aead_ad. cbv zeta. change (length [0] =? 0)%nat with false. cbv iota.
  set (l := full_chunks 16 (pad16 [0])). vm_compute in l. subst l. cbn [fold_left]. step8.
  set (s := aead_pt _ _). vm_compute in s. subst s. cbv beta iota.
  unfold aead_tag. cbv zeta. step12. vm_compute. reflexivity.
Qed.
(** No associated data, 17 byte message: the last byte of the ciphertext. *)
Lemma spec_case3 : nth 16 (fst (ASCON_AEAD128 k16 k16 [] (zeros 17))) 0 = 87.
Proof.
  unfold ASCON_AEAD128. unfold aead_init. cbv zeta. step12.
  set (s := aead_ad _ _). vm_compute in s. subst s.
  unfold aead_pt. set (l := full_chunks 16 (zeros 17)). vm_compute in l. subst l. cbn [aead_blocks]. step8.
  cbv -[aead_tag]. reflexivity.
Qed.
Definition conforms (K N A M : list Z) : Prop :=
  forall c0 e buf, ac_ssize c0 = 40%nat -> ac_taglen c0 = 16%nat -> length buf = 16%nat ->
  lc_ascon_setkey AL c0 (Some K) N = (0, e) ->
  exists e', lc_aead_encrypt AL e M A buf = Some (0, e', fst (ASCON_AEAD128 K N A M), snd (ASCON_AEAD128 K N A M)).
Lemma al_setkey : exists e, lc_ascon_setkey AL al_c0 (Some k16) k16 = (0, e) /\ e = snd (lc_ascon_setkey AL al_c0 (Some k16) k16).
Proof. eexists. split; [|reflexivity]. apply injective_projections; [vm_compute; reflexivity|reflexivity]. Qed.
Lemma not_conforms : forall A M, (forall e', al_enc A M <> Some (0, e', fst (ASCON_AEAD128 k16 k16 A M), snd (ASCON_AEAD128 k16 k16 A M))) ->
  ~ conforms k16 k16 A M.
Proof.
  intros A M X C. destruct al_setkey as (e & E1 & E2).
  destruct (C al_c0 e (zeros 16) eq_refl eq_refl eq_refl E1) as (e' & E'). rewrite E2 in E'. exact (X e' E').
Qed.
Theorem C31_refuted : exists K N, length K = 16%nat /\ length N = 16%nat /\ bytes K /\ bytes N /\
  ~ conforms K N [] [] /\ ~ conforms K N [0] [0] /\ ~ conforms K N [] (zeros 17).
Proof.
  assert (B : bytes k16) by (unfold bytes; repeat (constructor; [unfold byte; lia|]); constructor).
  exists k16, k16. split; [reflexivity|]. split; [reflexivity|]. split; [exact B|]. split; [exact B|].
  split; [|split]; apply not_conforms; intros e' X.
  - apply (f_equal tag_of) in X. cbn [tag_of] in X. rewrite spec_case1 in X. vm_compute in X. discriminate X.
  - apply (f_equal tag_of) in X. cbn [tag_of] in X. rewrite spec_case2 in X. vm_compute in X. discriminate X.
  - apply (f_equal (fun r => match r with Some (_, _, c, _) => nth 16 c 0 | None => 0 end)) in X.
    cbv beta iota in X. rewrite spec_case3 in X. vm_compute in X. discriminate X.
Qed.
Print Assumptions C31_refuted.
(** What holds: with non-empty associated data the ciphertext is right for every message, and the tag as well when the
    message is a positive whole number of blocks. Missing: the three kinds of input above. *)
Theorem C31_partial : forall c0 K N A M buf, ac_ssize c0 = 40%nat -> ac_taglen c0 = 16%nat ->
  length K = 16%nat -> length N = 16%nat -> bytes K -> bytes N -> bytes A -> bytes M -> A <> [] -> length buf = 16%nat ->
  exists e, lc_ascon_setkey AL c0 (Some K) N = (0, e) /\
  exists e' tag, lc_aead_encrypt AL e M A buf = Some (0, e', fst (ASCON_AEAD128 K N A M), tag) /\
    (M <> [] -> (length M mod 16)%nat = 0%nat -> tag = snd (ASCON_AEAD128 K N A M)).
Proof.
  intros c0 K N A M buf Hs Ht LK LN BK BN BA BM HA Lb.
  exists (keyed AL 40 16 K N). split.
  - apply (setkey_iff AL c0 K N); [rewrite Hs; exact fam_al|]. rewrite Hs, Ht, LK, LN.
    split; [reflexivity|]. split; [lia|]. split; [lia|reflexivity].
  - exact (nist_aead_ct 16 K N A M buf LK LN BK BN BA BM HA eq_refl Lb).
Qed.
Print Assumptions C31_partial.
Example C31_ex : [0] <> @nil Z /\ range 0 32 <> [] /\ (length (range 0 32) mod 16)%nat = 0%nat.
Proof. repeat split; discriminate. Qed.

(** ** C32. [auth_msg r m]: the blocks XORed into the state, and the position of the padding byte. The tag is a function
    of these (and of the keyed state with the AAD) and of nothing else. *)
Definition auth_tag (H : sponge) (c : acry) (a : list (list Z) * nat) : list Z :=
  let s := fold_left (fun s b => sp_perm H (ac_roundb c) (xor_at s 0 b)) (fst a) (ac_st c) in
  let s := sp_perm H 12 (xor_at (xor_at s (snd a) [1]) (sp_rate H) (the_key c)) in
  slice (xor_at s (ac_ssize c - ac_taglen c) (firstn (ac_taglen c) (ac_key c))) (ac_ssize c - ac_taglen c) (ac_taglen c).
Theorem C32_partial : forall H L c m buf, family H L -> live H L c -> ac_off c = 0%nat -> bytes m -> length buf = ac_taglen c ->
  (exists e, lc_aead_enc_final H (fst (lc_ascon_enc_update H c m)) buf = Some (0, e, auth_tag H c (auth_msg (sp_rate H) m))) /\
  forall m', auth_msg (sp_rate H) m = auth_msg (sp_rate H) m' <->
             m = m' \/ (m = [] /\ m' = zeros (sp_rate H)) \/ (m = zeros (sp_rate H) /\ m' = []).
Proof.
  intros H L c m buf F V Ho Bm Lb. split.
  - assert (V' := V). destruct V' as (A1 & A2 & A3 & A4 & A5 & A6 & A7 & A8).
    destruct (family_facts H L F) as (Q1 & Q2 & Q3 & Q4 & Q5).
    rewrite (enc_update_bytes H L (fam_rb H) Q1 Q2 Q5 c m (conj A1 (conj A2 A3))).
    assert (X := ebytes_auth H L F (fam_rb H) m (ac_st c) A1). rewrite Ho.
    assert (X4 := ebytes_inv H L (fam_rb H) Q1 Q2 Q5 m (ac_st c) 0 A1 ltac:(lia)).
    destruct (ebytes H (fam_rb H) (ac_st c) 0 m) as [[s1 o1] ct]. destruct X as [X1 X2]. destruct X4 as (_ & X4 & _).
    cbn [fst]. unfold lc_aead_enc_final, lc_ascon_enc_final.
    cbn [ac_key ac_keylen ac_off ac_ssize ac_roundb ac_taglen ac_st set_st set_so].
    rewrite Lb, Nat.eqb_refl. cbn [negb]. unfold add_padbyte. rewrite A3, X1, X2.
    unfold finalization. cbn [ac_key ac_keylen ac_off ac_ssize ac_roundb ac_taglen ac_st set_st set_so the_key].
    assert (R := fam_room H L F).
    assert (LL : length (xor_at (fold_left (absorb_blk H (fam_rb H)) (fst (auth_msg (sp_rate H) m)) (ac_st c))
              (snd (auth_msg (sp_rate H) m)) [1]) = L).
    { rewrite length_xor_at, <- X1. apply Q5. exact X4. }
    rewrite LL. destruct (Nat.ltb_spec L (sp_rate H + ac_keylen c)) as [Y|Y]; [exfalso; rewrite A8 in Y; lia|].
    eexists. unfold auth_tag. rewrite A3. reflexivity.
  - intros m'. apply auth_msg_iff. destruct (family_facts H L F) as (Q1 & _). exact Q1.
Qed.
Print Assumptions C32_partial.
(** Refuted: for every key, nonce and AAD the empty message and one block of zero bytes have the same tag; the receiver
    of (ciphertext of the zero block, tag) who is given no ciphertext but the tag accepts it. *)
Theorem C32_refuted : forall H L c buf, family H L -> live H L c -> ac_off c = 0%nat -> length buf = ac_taglen c ->
  exists m1 m2, m1 <> m2 /\ bytes m1 /\ bytes m2 /\
  snd (lc_ascon_enc_update H c m1) <> snd (lc_ascon_enc_update H c m2) /\
  exists e1 e2 tag, lc_aead_enc_final H (fst (lc_ascon_enc_update H c m1)) buf = Some (0, e1, tag) /\
                    lc_aead_enc_final H (fst (lc_ascon_enc_update H c m2)) buf = Some (0, e2, tag) /\
  (forall p1 p2 ip, exists d, lc_ascon_decrypt H p1 p2 c ip (snd (lc_ascon_enc_update H c m1)) [] tag = Some (0, d, m1)).
Proof.
  intros H L c buf F V Ho Lb.
  destruct (family_facts H L F) as (Q1 & Q2 & Q3 & Q4 & Q5).
  assert (Bz : bytes (zeros (sp_rate H))) by apply bytes_zeros.
  destruct (C32_partial H L c [] buf F V Ho ltac:(constructor) Lb) as ((e1 & E1) & I).
  destruct (C32_partial H L c (zeros (sp_rate H)) buf F V Ho Bz Lb) as ((e2 & E2) & _).
  exists [], (zeros (sp_rate H)).
  split. { intros X. apply (f_equal (@length Z)) in X. rewrite length_zeros in X. simpl in X. lia. }
  split; [constructor|]. split; [exact Bz|].
  split.
  { assert (V' := V). destruct V' as (A1 & A2 & A3 & A4 & A5 & A6 & A7 & A8).
    rewrite (enc_update_bytes H L (fam_rb H) Q1 Q2 Q5 c (zeros (sp_rate H)) (conj A1 (conj A2 A3))).
    assert (X4 := ebytes_inv H L (fam_rb H) Q1 Q2 Q5 (zeros (sp_rate H)) (ac_st c) (ac_off c) A1 A2).
    destruct (ebytes H (fam_rb H) (ac_st c) (ac_off c) (zeros (sp_rate H))) as [[s1 o1] ct].
    destruct X4 as (_ & _ & _ & X4). cbn [snd]. intros X. rewrite length_zeros in X4. subst ct. simpl in X4. lia. }
  exists e1, e2, (auth_tag H c (auth_msg (sp_rate H) [])). split; [exact E1|]. split.
  - assert (X : auth_msg (sp_rate H) [] = auth_msg (sp_rate H) (zeros (sp_rate H))) by (apply I; auto).
    rewrite X. exact E2.
  - intros p1 p2 ip. unfold lc_ascon_decrypt, lc_ascon_aad.
    cbn [lc_ascon_enc_update enc_loop snd]. unfold lc_ascon_dec_update. cbn [dec_loop length].
    assert (Eq : set_so c (ac_st c) (ac_off c) = c) by (destruct c; reflexivity). rewrite Eq.
    unfold lc_ascon_enc_update in E1. cbn [enc_loop length fst] in E1. rewrite Eq in E1.
    unfold lc_aead_enc_final in E1.
    destruct (enc_final_live H L F c buf V Lb) as (e3 & tag & T1 & T2 & T3 & T4). rewrite T1 in E1.
    assert (Et : tag = auth_tag H c (auth_msg (sp_rate H) [])) by (injection E1; intros; congruence).
    rewrite <- Et.
    destruct (dec_final_live H L F c tag buf p1 p2 V T2 Lb) as [_ G].
    destruct (G T3) as (c2 & t2 & G1 & G2 & _). rewrite T1 in G1.
    assert (Et2 : t2 = tag) by (injection G1; intros; congruence). rewrite (G2 (eq_sym Et2)).
    exists c2. reflexivity.
Qed.
Print Assumptions C32_refuted.
(** A context in that state: after setkey and any AAD. *)
Theorem C32_contexts : forall H c k n aad e, family H (ac_ssize c) -> bytes k -> bytes n -> bytes aad ->
  lc_ascon_setkey H c (Some k) n = (0, e) ->
  live H (ac_ssize c) (lc_ascon_aad H e aad) /\ ac_off (lc_ascon_aad H e aad) = 0%nat /\
  ac_taglen (lc_ascon_aad H e aad) = ac_taglen c.
Proof.
  intros H c k n aad e F Bk Bn Ba E. apply (setkey_iff H c k n e F) in E. destruct E as (A & B & C & ->).
  destruct (aad_same H (keyed H (ac_ssize c) (ac_taglen c) k n) aad) as (_ & _ & X1 & _ & X2 & _). rewrite X1, X2.
  split; [|split; reflexivity]. apply live_aad; auto. apply live_keyed; auto.
Qed.
Print Assumptions C32_contexts.
Example C32_ex : live AL 40 (lc_ascon_aad AL (snd (lc_ascon_setkey AL al_c0 (Some k16) k16)) [7]) /\
  tag_of (al_enc [7] []) = tag_of (al_enc [7] (zeros 16)).
Proof.
  split; [|vm_compute; reflexivity]. destruct al_setkey as (e & E1 & E2). rewrite <- E2.
  assert (B : bytes k16) by (unfold bytes; repeat (constructor; [unfold byte; lia|]); constructor).
  apply (C32_contexts AL al_c0 k16 k16 [7] e fam_al B B); [|exact E1].
  constructor; [unfold byte; lia|constructor].
Qed.

(** ** C34, Ascon family: the tag recomputed is the one enc_final would write. A tag of another length is refused with
    -EINVAL before anything is computed. *)
Theorem C34_ascon : forall H L c tag buf p1 p2, family H L -> live H L c -> bytes tag -> length buf = ac_taglen c ->
  (length tag <> ac_taglen c -> lc_ascon_dec_final H p1 p2 c tag = Some (- EINVAL, c)) /\
  (length tag = ac_taglen c -> exists e t, lc_aead_enc_final H c buf = Some (0, e, t) /\
     (tag = t -> lc_ascon_dec_final H p1 p2 c tag = Some (0, e)) /\
     (tag <> t -> lc_ascon_dec_final H p1 p2 c tag = Some (- EBADMSG, e))).
Proof.
  intros H L c tag buf p1 p2 F V Bt Lb. destruct (dec_final_live H L F c tag buf p1 p2 V Bt Lb) as [A B].
  split; [exact A|]. intros Ht. destruct (B Ht) as (e & t & E1 & E2). exists e, t.
  unfold lc_aead_enc_final. rewrite E1. split; [reflexivity|exact E2].
Qed.
Print Assumptions C34_ascon.

(** ** C36, Ascon family *)
(** Refuted: enc_final with a tag buffer of another length than the context's writes nothing and returns 0, for every
    context; and after a refused setkey encrypt returns 0, the first block of the "ciphertext" being the plaintext. *)
Theorem C36_ascon_taglen_refuted : forall H c buf, length buf <> ac_taglen c ->
  exists e, lc_aead_enc_final H c buf = Some (0, e, buf).
Proof.
  intros H c buf Hl. unfold lc_aead_enc_final, lc_ascon_enc_final. cbn [ac_taglen set_st].
  apply Nat.eqb_neq in Hl. rewrite Hl. cbn [negb]. eexists. reflexivity.
Qed.
Print Assumptions C36_ascon_taglen_refuted.
Lemma xorl_zeros_l : forall m, bytes m -> xorl (zeros (length m)) m = m.
Proof. intros m B. rewrite xorl_comm. apply xorl_zeros_r. lia. Qed.
Theorem C36_ascon_setkey_refuted : forall c k n pt buf, ac_ssize c = 40%nat -> length k <> 16%nat ->
  bytes pt -> (length pt <= 16)%nat -> length buf = 16%nat -> ac_taglen c = 16%nat ->
  exists e, lc_ascon_setkey AL c (Some k) n = (- EINVAL, e) /\
  exists e' tag, lc_aead_encrypt AL e pt [] buf = Some (0, e', pt, tag).
Proof.
  intros c k n pt buf Hs Hk Bp Lp Lb Ht.
  exists (lc_ascon_zero c). split.
  - unfold lc_ascon_setkey. destruct (_ || _)%bool; [reflexivity|].
    unfold ak_setiv. cbn [ac_taglen lc_ascon_zero zero_ex_key sp_rate AL].
    destruct (_ || _)%bool; [reflexivity|]. change (0 <? 0) with false. change (0 =? 0) with true. cbv iota beta.
    unfold al_setiv. cbn [sp_rate AL]. apply Nat.eqb_neq in Hk. rewrite Hk. reflexivity.
  - unfold lc_aead_encrypt, lc_ascon_encrypt, lc_ascon_aad.
    assert (E : exists c', lc_ascon_enc_update AL (lc_ascon_zero c) pt = (c', pt) /\ ac_ssize c' = 40%nat /\ ac_keylen c' = 0%nat /\
       length (ac_st c') = 40%nat /\ ac_taglen c' = 16%nat).
    { unfold lc_ascon_enc_update, lc_ascon_zero, zero_ex_key. cbn [ac_key ac_keylen ac_off ac_ssize ac_roundb ac_taglen ac_st set_so].
      rewrite Hs. destruct pt as [|b pt]; cbn [enc_loop].
      - eexists. split; [reflexivity|]. cbn [ac_ssize ac_keylen ac_st set_so ac_taglen]. auto using length_zeros.
      - change (sp_rate AL) with 16%nat. rewrite Nat.sub_0_r, (Nat.min_l (length (b :: pt)) 16) by lia.
        rewrite firstn_all, skipn_all. eexists. split.
        + apply (f_equal (fun x => (_, x))). rewrite xor_at_parts by (rewrite length_zeros; simpl in *; lia).
          unfold slice. rewrite !skipn_O. cbn [firstn app]. rewrite firstn_app_l.
          * replace (firstn (length (b :: pt)) (zeros 40)) with (zeros (length (b :: pt))).
            -- rewrite xorl_zeros_l by exact Bp. apply firstn_all.
            -- rewrite firstn_zeros by lia. reflexivity.
          * rewrite length_xorl, firstn_length, length_zeros. simpl in *. lia.
        + cbn [ac_ssize ac_keylen ac_st set_so ac_taglen]. rewrite length_xor_at. auto using length_zeros. }
    destruct E as (c' & -> & E1 & E2 & E3 & E4).
    unfold lc_ascon_enc_final. cbn [ac_taglen set_st]. rewrite E4, Lb. cbn [Nat.eqb negb].
    unfold finalization. cbn [ac_key ac_keylen ac_off ac_ssize ac_roundb ac_taglen ac_st set_st set_so the_key].
    rewrite E2. unfold add_padbyte. cbn [ac_st set_st]. rewrite length_xor_at. cbn [sp_perm AL]. rewrite asconB_length.
    cbn [sp_rate AL]. change (40 <? 16 + 0)%nat with false. cbv iota. eexists. eexists. reflexivity.
Qed.
Print Assumptions C36_ascon_setkey_refuted.
(** What holds: on a context whose setkey succeeded, with a tag buffer of the right size, every byte of ciphertext and
    tag is written (what is there does not depend on the old content). *)
Theorem C36_ascon_partial : forall H L c pts, family H L -> live H L c -> Forall bytes pts ->
  let '(e, out) := enc_updates H c pts in
  length (concat out) = length (concat pts) /\
  exists e' tag, length tag = ac_taglen c /\
    forall buf, length buf = ac_taglen c -> lc_aead_enc_final H e buf = Some (0, e', tag).
Proof.
  intros H L c pts F V Bp.
  assert (R := roundtrip_live H L F c pts [] (zeros (ac_taglen c)) false 0 0 V Bp (length_zeros _)).
  destruct (live_updates H L F c pts V Bp) as (W1 & W2 & W3).
  destruct (enc_updates H c pts) as [e out]. cbn [fst snd] in W1, W3. destruct R as (_ & _ & _ & R & _).
  split; [exact R|].
  destruct (enc_final_live H L F e (zeros (ac_taglen c)) W1 ltac:(rewrite length_zeros; congruence)) as (e' & tag & T1 & T2 & T3 & T4).
  exists e', tag. split; [congruence|]. intros buf Lb. unfold lc_aead_enc_final. rewrite (T4 buf ltac:(congruence)). reflexivity.
Qed.
Print Assumptions C36_ascon_partial.
Example C36_ascon_ex : fst (lc_ascon_setkey AL al_c0 (Some (range 0 15)) k16) = -22 /\
  match lc_aead_encrypt AL (snd (lc_ascon_setkey AL al_c0 (Some (range 0 15)) k16)) (range 65 16) [] (zeros 16) with
  | Some (r, _, ct, _) => r = 0 /\ ct = range 65 16
  | None => False
  end.
Proof. vm_compute. repeat split. Qed.
