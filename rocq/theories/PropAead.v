(** Properties C33 - C36 for the encrypt-then-MAC AEADs. The predicates [aead_roundtrip], [aead_verify] and [aead_tag] of
    AeadEtmTop.v spell out the claims; [X_mac] is the MAC over AAD and ciphertext written with KmacSpec / MacSpec. *)
From Verif Require Import Bytes Words Sha2Spec Sha2Model Sha2Proof Sha3Model HashIface MacSpec MacModel KmacSpec KmacModel
  KeccakBytes AesModel ModesModel DrbgModel DrbgProof XofDrngProof UtilModel UtilProof
  AeadEtmModel AeadEtmProof AeadEtmTop AeadSymTop AeadVectors.

(** ** C33 *)
Theorem C33_cshake : forall s1 s2 key iv, cc_memory s1 -> cc_memory s2 -> bytes key -> bytes iv ->
  Z.of_nat (length key) < 2 ^ 60 -> Z.of_nat (length iv) < 2 ^ 60 ->
  exists e1 e2, cc_setkey s1 key iv = (0, e1) /\ cc_setkey s2 key iv = (0, e2) /\
  aead_roundtrip (fun _ => True) (2 ^ 61) any_split any_split (cc_enc_stream e1) (fun st p1 p2 => cc_dec_stream st p1 p2 e2).
Proof.
  intros s1 s2 key iv M1 M2 Bk Bi Lk Li. exists (cc_keyed key iv), (cc_keyed key iv).
  exact (conj (cc_setkey_ok s1 key iv M1 Bk Bi Lk Li) (conj (cc_setkey_ok s2 key iv M2 Bk Bi Lk Li)
    (cc_roundtrip key iv Bk Bi Lk Li))).
Qed.
Print Assumptions C33_cshake.
Theorem C33_kmac_partial : forall s1 s2 key iv, kc_memory s1 -> kc_memory s2 -> bytes key -> bytes iv ->
  Z.of_nat (length key) < 2 ^ 60 -> Z.of_nat (length iv) < 2 ^ 60 ->
  exists e1 e2, kc_setkey s1 key iv = (0, e1) /\ kc_setkey s2 key iv = (0, e2) /\
  aead_roundtrip (fun n => (4 <= n)%nat) (2 ^ 61) any_split any_split (kc_enc_stream e1) (fun st p1 p2 => kc_dec_stream st p1 p2 e2).
Proof.
  intros s1 s2 key iv M1 M2 Bk Bi Lk Li. exists (kc_keyed key iv), (kc_keyed key iv).
  exact (conj (kc_setkey_ok s1 key iv M1 Bk Bi Lk Li) (conj (kc_setkey_ok s2 key iv M2 Bk Bi Lk Li)
    (kc_roundtrip key iv Bk Bi Lk Li))).
Qed.
Print Assumptions C33_kmac_partial.
(** [h] is any hash of the library ([hash_ok]); the contexts come from lc_hc_alloc / zeroing. *)
Theorem C33_hash_partial : forall h wf H maxlen, hash_ok h wf H maxlen ->
  forall s1 s2 key iv, hc_memory h wf s1 -> hc_memory h wf s2 -> bytes key -> bytes iv -> key <> [] ->
  Z.of_nat (length key) < 2 ^ 59 -> Z.of_nat (length iv) <= 2 ^ 31 ->
  exists e1 e2, hc_setkey h s1 key iv = (0, e1) /\ hc_setkey h s2 key iv = (0, e2) /\
  aead_roundtrip (fun n => (n <= h_ds h)%nat) (2 ^ 52) any_split any_split (hc_enc_stream h e1)
    (fun st p1 p2 => hc_dec_stream h st p1 p2 e2).
Proof.
  intros h wf H maxlen OK s1 s2 key iv M1 M2 Bk Bi Hk Lk Li.
  destruct (hc_setkey_ok h wf key iv Bk Bi Hk Lk Li s1 M1) as (e1 & E1 & R1).
  destruct (hc_setkey_ok h wf key iv Bk Bi Hk Lk Li s2 M2) as (e2 & E2 & R2).
  exists e1, e2. exact (conj E1 (conj E2 (hc_roundtrip h wf H maxlen OK key iv Bk Bi e1 e2 R1 R2))).
Qed.
Print Assumptions C33_hash_partial.
(** Two contexts for the same cipher. *)
Definition same_cipher (a b : sym) : Prop :=
  match a, b with SCbc _ _, SCbc _ _ | SCtr _ _, SCtr _ _ | SCc _, SCc _ => True | _, _ => False end.
Lemma same_start : forall a b iv, same_cipher a b -> sym_start a iv = sym_start b iv /\ sym_ivlen a = sym_ivlen b.
Proof. intros a b iv X. destruct a, b; try contradiction; auto. Qed.
Theorem C33_symhmac_partial : forall h wf H maxlen, hash_ok h wf H maxlen ->
  forall hm1 hm2 s1 s2 key iv, swf cfg512 (hm_h sha512_ops hm1) -> swf cfg512 (hm_h sha512_ops hm2) ->
  sym_memory (fst s1) -> sym_memory (fst s2) -> wf (hm_h h (snd s1)) -> wf (hm_h h (snd s2)) -> same_cipher (fst s1) (fst s2) ->
  bytes key -> bytes iv -> key <> [] -> Z.of_nat (length key) < 2 ^ 60 -> length iv = sym_ivlen (fst s1) ->
  exists e1 e2, sh_setkey h hm1 s1 key iv = (0, e1) /\ sh_setkey h hm2 s2 key iv = (0, e2) /\
  aead_roundtrip (fun n => (n <= h_ds h)%nat) (2 ^ 60) (okpieces (sym_start (fst s1) iv)) (okcut (sym_start (fst s1) iv))
    (sh_enc_stream h e1) (fun st p1 p2 => sh_dec_stream h st p1 p2 e2).
Proof.
  intros h wf H maxlen OK hm1 hm2 s1 s2 key iv W1 W2 M1 M2 V1 V2 S Bk Bi Hk Lk Li.
  destruct (same_start _ _ iv S) as [S1 S2]. assert (Li' := Li). rewrite S2 in Li'.
  destruct (proj1 (sh_setkey_ok h wf key iv Bk Bi Hk Lk hm1 s1 W1 M1 V1) Li) as (e1 & E1 & R1).
  destruct (proj1 (sh_setkey_ok h wf key iv Bk Bi Hk Lk hm2 s2 W2 M2 V2) Li') as (e2 & E2 & R2).
  rewrite <- S1 in R2.
  exists e1, e2. exact (conj E1 (conj E2 (sh_roundtrip h wf H maxlen OK key Bk _ e1 e2 R1 R2))).
Qed.
Print Assumptions C33_symhmac_partial.
Theorem C33_symkmac_partial : forall s1 s2 key iv,
  sym_memory (fst s1) -> sym_memory (fst s2) -> hc_alg (km_h (snd s1)) = alg_cshake256 -> hc_alg (km_h (snd s2)) = alg_cshake256 ->
  same_cipher (fst s1) (fst s2) -> bytes key -> bytes iv -> Z.of_nat (length key) < 2 ^ 60 -> length iv = sym_ivlen (fst s1) ->
  exists e1 e2, kh_setkey s1 key iv = (0, e1) /\ kh_setkey s2 key iv = (0, e2) /\
  aead_roundtrip (fun n => (4 <= n <= 128)%nat) (2 ^ 61) (okpieces (sym_start (fst s1) iv)) (okcut (sym_start (fst s1) iv))
    (kh_enc_stream e1) (fun st p1 p2 => kh_dec_stream st p1 p2 e2).
Proof.
  intros s1 s2 key iv M1 M2 A1 A2 S Bk Bi Lk Li.
  destruct (same_start _ _ iv S) as [S1 S2]. assert (Li' := Li). rewrite S2 in Li'.
  destruct (proj1 (kh_setkey_ok key iv Bk Bi Lk s1 M1 A1) Li) as (e1 & E1 & R1).
  destruct (proj1 (kh_setkey_ok key iv Bk Bi Lk s2 M2 A2) Li') as (e2 & E2 & R2).
  rewrite <- S1 in R2.
  exists e1, e2. exact (conj E1 (conj E2 (kh_roundtrip key Bk Lk _ e1 e2 R1 R2))).
Qed.
Print Assumptions C33_symkmac_partial.

(** Examples: the contexts after allocation, and the vectors of aead/tests. *)
Definition kz := keccak_init alg_cshake256.
Definition hz := mkH alg_cshake256 kz.
Definition s512 := Sha2Model.mkS (zeros 8) 0 (zeros 128).
Definition hm512 := mkHM sha512_ops s512 (zeros 128) (zeros 128).
Definition cc0 : ks KmacModel.hctx * csctx := (mkKS _ hz (zeros 136) 0, mkCS hz kz).
Definition kc0 : ks kmctx * kmctx := (mkKS _ (mkKM hz None false) (zeros 136) 0, mkKM hz (Some kz) false).
Definition hc0 : ks (hdst sha512_ops) * hmctx sha512_ops := (mkKS _ (hash_drbg_zero sha512_ops 111 s512) (zeros 64) 0, hm512).
Definition sh0 : sym * hmctx sha512_ops := (SCbc (mkAes [] 0 0) (zeros 16), hm512).
Definition kh0 : sym * kmctx := (SCbc (mkAes [] 0 0) (zeros 16), mkKM hz None false).
Example C33_ex_memory : cc_memory cc0 /\ kc_memory kc0 /\ hc_memory sha512_ops (swf cfg512) hc0 /\ sym_memory (fst sh0) /\
  okpieces (ACbc []) [cc_in] [] /\ okcut (ACbc []) [cc_in] [firstn 32 cc_in; skipn 32 cc_in].
Proof.
  assert (W : swf cfg512 s512) by reflexivity.
  split; [split; reflexivity|]. split; [repeat split; discriminate|]. split; [split; [exists s512; split; [exact W|reflexivity]|exact W]|].
  split; [exact I|]. split; repeat constructor.
Qed.
Lemma ex_cc : cc_encrypt (snd (cc_setkey cc0 cc_key [])) cc_in cc_in (zeros 64) = (0, cc_exp_ct, cc_exp_tag).
Proof. vm_compute. reflexivity. Qed.
Lemma ex_kc : kc_encrypt (snd (kc_setkey kc0 kc_key [])) kc_in kc_in (zeros (length kc_exp_tag)) = (0, kc_exp_ct, kc_exp_tag).
Proof. vm_compute. reflexivity. Qed.
Lemma ex_hc : hc_encrypt sha512_ops (snd (hc_setkey sha512_ops hc0 hc_in [])) hc_in hc_in (zeros (length hc_exp_tag)) = (0, hc_exp_ct, hc_exp_tag).
Proof. vm_compute. reflexivity. Qed.
Lemma ex_sh : sh_encrypt sha512_ops (snd (sh_setkey sha512_ops hm512 sh0 sh_key (firstn 16 sh_in))) sh_in sh_in (zeros (length sh_exp_tag)) = (0, sh_exp_ct, sh_exp_tag).
Proof. vm_compute. reflexivity. Qed.
Lemma ex_kh : kh_encrypt (snd (kh_setkey kh0 kh_key (firstn 16 kh_in))) kh_in kh_in (zeros (length kh_exp_tag)) = (0, kh_exp_ct, kh_exp_tag).
Proof. vm_compute. reflexivity. Qed.

(** *** What fails of C33 *)
Lemma enc_stream_parts : forall C M enc mupd mtag s aad ps buf,
  etm_encrypt_stream C M enc mupd mtag s aad ps buf =
  (fst (etm_encs C M enc mupd (etm_aad C M mupd s aad) ps),
   fst (etm_tag C M mtag (snd (etm_encs C M enc mupd (etm_aad C M mupd s aad) ps)) buf)).
Proof. intros. unfold etm_encrypt_stream. destruct (etm_encs _ _ _ _ _ _). reflexivity. Qed.
Lemma dec_stream_parts : forall C M dec mupd mtag cap st p1 p2 s aad cs tag,
  etm_decrypt_stream C M dec mupd mtag cap st p1 p2 s aad cs tag =
  (fst (etm_decs C M dec mupd (etm_aad C M mupd s aad) cs),
   fst (etm_auth C M mtag cap st p1 p2 (snd (etm_decs C M dec mupd (etm_aad C M mupd s aad) cs)) tag)).
Proof. intros. unfold etm_decrypt_stream. destruct (etm_decs _ _ _ _ _ _). reflexivity. Qed.
(** A MAC that writes nothing. *)
Lemma silent_tag : forall C M mtag (s : C * M) buf, fst (mtag (snd s) (length buf)) = [] -> fst (etm_tag C M mtag s buf) = buf.
Proof. intros C M mtag s buf X. unfold etm_tag. destruct (mtag (snd s) (length buf)) as [t m]. cbn [fst] in X. subst t. reflexivity. Qed.
Lemma silent_auth : forall C M mtag cap st p1 p2 (s : C * M) tag, cap (length tag) = Some (length tag) ->
  (forall n, length (st n) = n) -> fst (mtag (snd s) (length tag)) = [] -> bytes tag -> bytes (st (length tag)) ->
  fst (etm_auth C M mtag cap st p1 p2 s tag) = if list_eq_dec Z.eq_dec (st (length tag)) tag then 0 else -74.
Proof.
  intros C M mtag cap st p1 p2 s tag Hc Hs Hm Bt Bs. unfold etm_auth. rewrite Hc.
  assert (X := silent_tag C M mtag s (st (length tag))). rewrite Hs in X. specialize (X Hm).
  destruct (etm_tag C M mtag s (st (length tag))) as [calc s']. cbn [fst] in *. subst calc.
  rewrite firstn_all. destruct (memcmp_spec p1 (st (length tag)) p2 tag Bs Bt) as [M1 M2].
  destruct (list_eq_dec Z.eq_dec (st (length tag)) tag) as [e|e].
  - apply M1 in e. rewrite e. reflexivity.
  - destruct M2 as [M2|M2]; [exfalso; apply e, M1; exact M2|]. rewrite M2. reflexivity.
Qed.
(** Refuted for tags of fewer than 4 bytes with the KMAC AEADs, for every key, IV, AAD and message: encrypt leaves the
    tag buffer as it was; decrypt compares the tag with whatever its uninitialised calctag buffer held, so that it
    refuses what encrypt produced when these differ and accepts anything when they agree. *)
Theorem C33_kmac_short_tag_refuted : forall e aad ps buf stack p1 p2 cs, (length buf < 4)%nat -> bytes buf ->
  (forall n, length (stack n) = n) -> bytes (stack (length buf)) ->
  snd (kc_enc_stream e aad ps buf) = buf /\
  snd (kc_dec_stream stack p1 p2 e aad cs buf) = (if list_eq_dec Z.eq_dec (stack (length buf)) buf then 0 else -74).
Proof.
  intros e aad ps buf stack p1 p2 cs Hl Bb Hs Bs.
  assert (K : forall c, fst (kc_tag c (length buf)) = []).
  { intros c. unfold kc_tag, kmac_final_xof. destruct (Nat.leb_spec 4 (length buf)); [lia|]. reflexivity. }
  unfold kc_enc_stream, kc_dec_stream. rewrite enc_stream_parts, dec_stream_parts. cbn [fst snd].
  split; [apply silent_tag, K|]. apply silent_auth; auto.
Qed.
Print Assumptions C33_kmac_short_tag_refuted.
Theorem C33_symkmac_short_tag_refuted : forall e aad ps buf stack p1 p2 cs, (length buf < 4)%nat -> bytes buf ->
  (forall n, length (stack n) = n) -> bytes (stack (length buf)) ->
  snd (kh_enc_stream e aad ps buf) = buf /\
  snd (kh_dec_stream stack p1 p2 e aad cs buf) = (if list_eq_dec Z.eq_dec (stack (length buf)) buf then 0 else -74).
Proof.
  intros e aad ps buf stack p1 p2 cs Hl Bb Hs Bs.
  assert (K : forall c, fst (kh_tag c (length buf)) = []).
  { intros c. unfold kh_tag, kmac_final_xof. destruct (Nat.leb_spec 4 (length buf)); [lia|]. reflexivity. }
  unfold kh_enc_stream, kh_dec_stream. rewrite enc_stream_parts, dec_stream_parts. cbn [fst snd].
  split; [apply silent_tag, K|]. apply silent_auth; auto. unfold kh_cap. rewrite Nat.min_l by lia. reflexivity.
Qed.
Print Assumptions C33_symkmac_short_tag_refuted.
Definition C33_short_ex_claim := (length [7; 7] < 4)%nat /\ bytes [7; 7] /\ (forall n, length (repeat 9 n) = n) /\ bytes (repeat 9 2).
Example C33_short_ex : C33_short_ex_claim.
Proof. split; [simpl; lia|]. split; [|split]; [|intros; apply repeat_length|]; repeat (constructor; [unfold byte; lia|]); constructor. Qed.
(** Refuted for the hash AEAD and tags over 64 bytes: encrypt goes through, decrypt answers -EINVAL. *)
Theorem C33_hash_long_tag_refuted : forall h e aad cs tag stack p1 p2, (64 < length tag)%nat ->
  snd (hc_dec_stream h stack p1 p2 e aad cs tag) = -22.
Proof.
  intros. unfold hc_dec_stream. rewrite dec_stream_parts. cbn [snd]. unfold etm_auth, hc_cap.
  destruct (Nat.ltb_spec 64 (length tag)); [reflexivity|lia].
Qed.
Print Assumptions C33_hash_long_tag_refuted.
(** Refuted for the stream modes when sender and receiver cut the data differently (AES-CTR starts a new counter block
    at every call): the tag is accepted and the plaintext is wrong. *)
Definition ctr0 : sym * hmctx sha512_ops := (SCtr (mkAes [] 0 0) (0, 0), hm512).
Definition C33_ctr_split_claim :=
  let e := snd (sh_setkey sha512_ops hm512 ctr0 [1] (zeros 16)) in
  let '(ct, tag) := sh_enc_stream sha512_ops e [] [[10]; [20]] (zeros 64) in
  let '(pt, r) := sh_dec_stream sha512_ops (fun n => zeros n) 0 0 e [] [concat ct] tag in
  r = 0 /\ concat pt <> [10; 20].
Theorem C33_ctr_split_refuted : C33_ctr_split_claim.
Proof. vm_compute. split; [reflexivity|discriminate]. Qed.
Print Assumptions C33_ctr_split_refuted.
(** Refuted for the hash AEAD when one side calls setkey for the second time on its context (the seeding of the DRBG
    becomes a reseeding): same key and IV, decrypt answers -EBADMSG. *)
Definition C33_hash_rekey_claim :=
  let '(r1, e1) := hc_setkey sha512_ops hc0 [1] [] in
  let '(r2, e2) := hc_setkey sha512_ops e1 [1] [] in
  let '(ct, tag) := hc_enc_stream sha512_ops e2 [] [[10]] (zeros 64) in
  r1 = 0 /\ r2 = 0 /\ snd (hc_dec_stream sha512_ops (fun n => zeros n) 0 0 e1 [] ct tag) = -74.
Theorem C33_hash_rekey_refuted : C33_hash_rekey_claim.
Proof. vm_compute. repeat split. Qed.
Print Assumptions C33_hash_rekey_refuted.

(** ** C34: decrypt accepts exactly the recomputed tag. *)
Theorem C34_cshake : forall s key iv, cc_memory s -> bytes key -> bytes iv -> Z.of_nat (length key) < 2 ^ 60 -> Z.of_nat (length iv) < 2 ^ 60 ->
  exists e, cc_setkey s key iv = (0, e) /\
  aead_verify (cc_mac key iv) (fun _ => True) (2 ^ 61) (fun st p1 p2 => cc_dec_stream st p1 p2 e).
Proof.
  intros s key iv M Bk Bi Lk Li. exists (cc_keyed key iv).
  exact (conj (cc_setkey_ok s key iv M Bk Bi Lk Li) (cc_verify key iv Bk Bi Lk Li)).
Qed.
Print Assumptions C34_cshake.
Theorem C34_kmac_partial : forall s key iv, kc_memory s -> bytes key -> bytes iv -> Z.of_nat (length key) < 2 ^ 60 -> Z.of_nat (length iv) < 2 ^ 60 ->
  exists e, kc_setkey s key iv = (0, e) /\
  aead_verify (kc_mac key iv) (fun n => (4 <= n)%nat) (2 ^ 61) (fun st p1 p2 => kc_dec_stream st p1 p2 e).
Proof.
  intros s key iv M Bk Bi Lk Li. exists (kc_keyed key iv).
  exact (conj (kc_setkey_ok s key iv M Bk Bi Lk Li) (kc_verify key iv Bk Bi Lk Li)).
Qed.
Print Assumptions C34_kmac_partial.
Theorem C34_hash_partial : forall h wf H maxlen, hash_ok h wf H maxlen ->
  forall s key iv, hc_memory h wf s -> bytes key -> bytes iv -> key <> [] -> Z.of_nat (length key) < 2 ^ 59 -> Z.of_nat (length iv) <= 2 ^ 31 ->
  exists e, hc_setkey h s key iv = (0, e) /\
  aead_verify (hc_mac h H key iv) (fun n => (n <= h_ds h)%nat) (2 ^ 52) (fun st p1 p2 => hc_dec_stream h st p1 p2 e).
Proof.
  intros h wf H maxlen OK s key iv M Bk Bi Hk Lk Li.
  destruct (hc_setkey_ok h wf key iv Bk Bi Hk Lk Li s M) as (e & E & R). exists e.
  exact (conj E (hc_verify h wf H maxlen OK key iv Bk Bi e R)).
Qed.
Print Assumptions C34_hash_partial.
Theorem C34_symhmac_partial : forall h wf H maxlen, hash_ok h wf H maxlen ->
  forall hm s key iv, swf cfg512 (hm_h sha512_ops hm) -> sym_memory (fst s) -> wf (hm_h h (snd s)) ->
  bytes key -> bytes iv -> key <> [] -> Z.of_nat (length key) < 2 ^ 60 -> length iv = sym_ivlen (fst s) ->
  exists e, sh_setkey h hm s key iv = (0, e) /\
  aead_verify (sh_mac h H key) (fun n => (n <= h_ds h)%nat) (2 ^ 60) (fun st p1 p2 => sh_dec_stream h st p1 p2 e).
Proof.
  intros h wf H maxlen OK hm s key iv W M V Bk Bi Hk Lk Li.
  destruct (proj1 (sh_setkey_ok h wf key iv Bk Bi Hk Lk hm s W M V) Li) as (e & E & R). exists e.
  exact (conj E (sh_verify h wf H maxlen OK key Bk _ e R)).
Qed.
Print Assumptions C34_symhmac_partial.
Theorem C34_symkmac_partial : forall s key iv, sym_memory (fst s) -> hc_alg (km_h (snd s)) = alg_cshake256 ->
  bytes key -> bytes iv -> Z.of_nat (length key) < 2 ^ 60 -> length iv = sym_ivlen (fst s) ->
  exists e, kh_setkey s key iv = (0, e) /\
  aead_verify (kh_mac key) (fun n => (4 <= n <= 128)%nat) (2 ^ 61) (fun st p1 p2 => kh_dec_stream st p1 p2 e).
Proof.
  intros s key iv M A Bk Bi Lk Li. destruct (proj1 (kh_setkey_ok key iv Bk Bi Lk s M A) Li) as (e & E & R). exists e.
  exact (conj E (kh_verify key Bk Lk _ e R)).
Qed.
Print Assumptions C34_symkmac_partial.
(** Refuted for tags longer than the MAC (Sym-HMAC) or 128 bytes (Sym-KMAC): the bytes behind are ignored. *)
Theorem C34_symhmac_tail_refuted : forall h e aad cs tag junk stack p1 p2, length tag = h_ds h ->
  snd (sh_dec_stream h stack p1 p2 e aad cs (tag ++ junk)) = snd (sh_dec_stream h stack p1 p2 e aad cs tag).
Proof.
  intros. unfold sh_dec_stream. rewrite !dec_stream_parts. cbn [snd]. unfold etm_auth, sh_cap.
  rewrite app_length, H, Nat.min_r, Nat.min_id, <- H, firstn_length_app, firstn_all by lia. reflexivity.
Qed.
Print Assumptions C34_symhmac_tail_refuted.
Theorem C34_symkmac_tail_refuted : forall e aad cs tag junk stack p1 p2, length tag = 128%nat ->
  snd (kh_dec_stream stack p1 p2 e aad cs (tag ++ junk)) = snd (kh_dec_stream stack p1 p2 e aad cs tag).
Proof.
  intros. unfold kh_dec_stream. rewrite !dec_stream_parts. cbn [snd]. unfold etm_auth, kh_cap.
  rewrite app_length, H, Nat.min_r, Nat.min_id by lia. rewrite <- H, firstn_length_app, firstn_all. reflexivity.
Qed.
Print Assumptions C34_symkmac_tail_refuted.
(** An empty tag is accepted with any ciphertext by all five (the caller's tag length is not checked against a minimum). *)
Lemma memcmp_nil : forall p1 p2, lc_memcmp_secure p1 [] p2 [] = 0.
Proof. intros. apply memcmp_spec; constructor. Qed.
Lemma empty_auth : forall C M mtag cap st p1 p2 (s : C * M), cap 0%nat = Some 0%nat ->
  (forall n, length (st n) = n) -> fst (mtag (snd s) 0%nat) = [] ->
  fst (etm_auth C M mtag cap st p1 p2 s []) = 0.
Proof.
  intros C M mtag cap st p1 p2 s Hc Hs Hm. unfold etm_auth. change (length (@nil Z)) with 0%nat. rewrite Hc.
  assert (E0 : st 0%nat = []) by (apply length_zero_iff_nil, Hs).
  assert (X := silent_tag C M mtag s []). rewrite E0.
  destruct (etm_tag C M mtag s []) as [calc s']. cbn [fst] in *. rewrite (X Hm). cbn [firstn]. rewrite memcmp_nil. reflexivity.
Qed.
Theorem C34_empty_tag_accepted : forall stack p1 p2 aad cs, (forall n, length (stack n) = n) ->
  (forall e, snd (kc_dec_stream stack p1 p2 e aad cs []) = 0) /\
  (forall e, snd (kh_dec_stream stack p1 p2 e aad cs []) = 0) /\
  (forall h e, (0 < h_ds h <= 64)%nat -> snd (hc_dec_stream h stack p1 p2 e aad cs []) = 0) /\
  (forall h e, (0 < h_ds h)%nat -> snd (sh_dec_stream h stack p1 p2 e aad cs []) = 0) /\
  (forall key iv, bytes key -> bytes iv -> bytes aad -> Forall bytes cs ->
     Z.of_nat (length key) < 2 ^ 60 -> Z.of_nat (length iv) < 2 ^ 60 -> Z.of_nat (length aad + length (concat cs)) < 2 ^ 61 ->
     snd (cc_dec_stream stack p1 p2 (cc_keyed key iv) aad cs []) = 0).
Proof.
  intros stack p1 p2 aad cs Hs. split; [|split; [|split; [|split]]].
  - intros e. unfold kc_dec_stream. rewrite dec_stream_parts. cbn [snd]. apply empty_auth; auto.
  - intros e. unfold kh_dec_stream. rewrite dec_stream_parts. cbn [snd]. apply empty_auth; auto.
  - intros h e Hd. unfold hc_dec_stream. rewrite dec_stream_parts. cbn [snd]. apply empty_auth; auto.
    unfold hc_tag. destruct (Nat.ltb_spec 64 (h_ds h)); [lia|]. destruct (hmac_final h _) as [t c].
    destruct (Nat.ltb_spec 0 (h_ds h)); [reflexivity|lia].
  - intros h e Hd. unfold sh_dec_stream. rewrite dec_stream_parts. cbn [snd]. apply empty_auth; auto.
    unfold sh_tag. destruct (hmac_final h _) as [t c]. destruct (Nat.ltb_spec 0 (h_ds h)); [reflexivity|lia].
  - intros key iv Bk Bi Ba Bc Lk Li Ll.
    destruct (cc_verify key iv Bk Bi Lk Li aad cs [] stack p1 p2 Ba Bc ltac:(constructor) I Hs Ll) as [V _].
    destruct (bytes_authkey key iv Bk Bi Lk Li) as [B1 B2].
    apply V. symmetry. apply length_zero_iff_nil. unfold cc_mac. change (length (@nil Z)) with 0%nat.
    refine (proj2 (cSHAKE_ok _ 0 0 cc_auth_str _ (bytes_app _ _ Ba (bytes_concat _ Bc)) (proj2 cc_str_ok) B1 _ _)); [cbn; lia|lia].
Qed.
Print Assumptions C34_empty_tag_accepted.

(** ** C35 refuted: the MAC input is AAD and ciphertext one after the other. For all five AEADs, every key, AAD, ciphertext
    and tag: bytes moved from the front of the ciphertext to the end of the AAD make no difference to the verdict. *)
Definition aead_confuses (okt : nat -> Prop) (lim : Z)
  (dec : (nat -> list Z) -> Z -> Z -> list Z -> list (list Z) -> list Z -> list (list Z) * Z) : Prop :=
  forall aad x ct tag stack p1 p2, bytes aad -> bytes x -> bytes ct -> bytes tag -> okt (length tag) ->
  (forall n, length (stack n) = n) -> Z.of_nat (length aad + length x + length ct) < lim ->
  snd (dec stack p1 p2 aad [x ++ ct] tag) = snd (dec stack p1 p2 (aad ++ x) [ct] tag).
Lemma verify_confuses : forall T okt lim dec, aead_verify T okt lim dec -> aead_confuses okt lim dec.
Proof.
  intros T okt lim dec V aad x ct tag stack p1 p2 Ba Bx Bc Bt Ot Hs Hl.
  destruct (V aad [x ++ ct] tag stack p1 p2 Ba) as [V1 V2]; auto.
  { constructor; [apply bytes_app; auto|constructor]. }
  { cbn [concat]. rewrite app_nil_r, app_length. lia. }
  destruct (V (aad ++ x) [ct] tag stack p1 p2) as [W1 W2]; auto.
  { apply bytes_app; auto. }
  { cbn [concat]. rewrite app_nil_r, app_length. lia. }
  cbn [concat] in *. rewrite !app_nil_r in *. rewrite app_assoc in V1.
  destruct (Z.eq_dec (snd (dec stack p1 p2 aad [x ++ ct] tag)) 0) as [e|e].
  - rewrite e. symmetry. apply W1, V1, e.
  - rewrite (V2 e). symmetry. apply W2. intros X. apply e, V1, W1, X.
Qed.
Theorem C35_refuted :
  (forall key iv, bytes key -> bytes iv -> Z.of_nat (length key) < 2 ^ 60 -> Z.of_nat (length iv) < 2 ^ 60 ->
     aead_confuses (fun _ => True) (2 ^ 61) (fun st p1 p2 => cc_dec_stream st p1 p2 (cc_keyed key iv))) /\
  (forall key iv, bytes key -> bytes iv -> Z.of_nat (length key) < 2 ^ 60 -> Z.of_nat (length iv) < 2 ^ 60 ->
     aead_confuses (fun n => (4 <= n)%nat) (2 ^ 61) (fun st p1 p2 => kc_dec_stream st p1 p2 (kc_keyed key iv))) /\
  (forall h wf H maxlen, hash_ok h wf H maxlen -> forall key iv e, bytes key -> bytes iv -> hc_ready h wf key iv e ->
     aead_confuses (fun n => (n <= h_ds h)%nat) (2 ^ 52) (fun st p1 p2 => hc_dec_stream h st p1 p2 e)) /\
  (forall h wf H maxlen, hash_ok h wf H maxlen -> forall key a e, bytes key -> sh_ready h wf key a e ->
     aead_confuses (fun n => (n <= h_ds h)%nat) (2 ^ 60) (fun st p1 p2 => sh_dec_stream h st p1 p2 e)) /\
  (forall key a e, bytes key -> Z.of_nat (length key) < 2 ^ 60 -> kh_ready key a e ->
     aead_confuses (fun n => (4 <= n <= 128)%nat) (2 ^ 61) (fun st p1 p2 => kh_dec_stream st p1 p2 e)).
Proof.
  split; [|split; [|split; [|split]]].
  - intros key iv Bk Bi Lk Li. exact (verify_confuses _ _ _ _ (cc_verify key iv Bk Bi Lk Li)).
  - intros key iv Bk Bi Lk Li. exact (verify_confuses _ _ _ _ (kc_verify key iv Bk Bi Lk Li)).
  - intros h wf H maxlen OK key iv e Bk Bi R. exact (verify_confuses _ _ _ _ (hc_verify h wf H maxlen OK key iv Bk Bi e R)).
  - intros h wf H maxlen OK key a e Bk R. exact (verify_confuses _ _ _ _ (sh_verify h wf H maxlen OK key Bk a e R)).
  - intros key a e Bk Lk R. exact (verify_confuses _ _ _ _ (kh_verify key Bk Lk a e R)).
Qed.
Print Assumptions C35_refuted.
(** A forgery from one message: the first ciphertext byte is taken as AAD. *)
Definition C35_ex_claim :=
  let e := snd (cc_setkey cc0 cc_key []) in
  let '(_, ct, tag) := cc_encrypt e [1; 2] [3; 4; 5] (zeros 16) in
  fst (cc_decrypt (fun n => zeros n) 0 0 e [1; 2] ct tag) = 0 /\
  fst (cc_decrypt (fun n => zeros n) 0 0 e ([1; 2] ++ firstn 1 ct) (skipn 1 ct) tag) = 0 /\
  fst (cc_decrypt (fun n => zeros n) 0 0 e [1; 3] ct tag) = -74.
Example C35_ex : C35_ex_claim.
Proof. vm_compute. repeat split. Qed.

(** ** C36 *)
(** lc_aead_encrypt returns 0 whatever the state of the context. *)
Theorem C36_encrypt_always_0 : forall aad pt buf,
  (forall e, fst (fst (cc_encrypt e aad pt buf)) = 0) /\ (forall e, fst (fst (kc_encrypt e aad pt buf)) = 0) /\
  (forall h e, fst (fst (hc_encrypt h e aad pt buf)) = 0) /\ (forall h e, fst (fst (sh_encrypt h e aad pt buf)) = 0) /\
  (forall e, fst (fst (kh_encrypt e aad pt buf)) = 0).
Proof.
  intros. assert (G : forall C M enc mupd mtag s, fst (fst (etm_encrypt C M enc mupd mtag s aad pt buf)) = 0).
  { intros. unfold etm_encrypt. destruct (etm_enc _ _ _ _ _ _). reflexivity. }
  split; [|split; [|split; [|split]]]; intros; apply G.
Qed.
Print Assumptions C36_encrypt_always_0.
(** Refuted: (1) KMAC AEAD, 3 byte tag: not written; (2) Sym-HMAC, 70 byte tag: the last 6 bytes are not written;
    (3) AES-CBC, 17 byte plaintext: the last byte is not encrypted, a zero byte stands for it. All return 0. *)
Definition C36_kmac_claim := exists ct, kc_encrypt (snd (kc_setkey kc0 kc_key [])) [] [1] [7; 8; 9] = (0, ct, [7; 8; 9]).
Definition C36_symhmac_claim := let '(r, _, tag) := sh_encrypt sha512_ops (snd (sh_setkey sha512_ops hm512 sh0 sh_key (zeros 16))) [] (zeros 16) (repeat 5 70) in
  r = 0 /\ skipn 64 tag = repeat 5 6 /\ firstn 64 tag <> repeat 5 64.
Definition C36_cbc_claim := let e := snd (sh_setkey sha512_ops hm512 sh0 sh_key (zeros 16)) in
  sh_encrypt sha512_ops e [] (zeros 16 ++ [1]) (zeros 64) = sh_encrypt sha512_ops e [] (zeros 16 ++ [2]) (zeros 64) /\
  let '(r, ct, _) := sh_encrypt sha512_ops e [] (zeros 16 ++ [1]) (zeros 64) in r = 0 /\ skipn 16 ct = [0].
Lemma C36_kmac_w : C36_kmac_claim.
Proof.
  exists (snd (fst (kc_encrypt (snd (kc_setkey kc0 kc_key [])) [] [1] [7; 8; 9]))). vm_compute. reflexivity.
Qed.
Lemma C36_symhmac_w : C36_symhmac_claim. Proof. vm_compute. repeat split. discriminate. Qed.
Lemma C36_cbc_w : C36_cbc_claim. Proof. vm_compute. repeat split. Qed.
Theorem C36_refuted : C36_kmac_claim /\ C36_symhmac_claim /\ C36_cbc_claim.
Proof. exact (conj C36_kmac_w (conj C36_symhmac_w C36_cbc_w)). Qed.
Print Assumptions C36_refuted.
(** What holds: for a context that went through a successful setkey, the documented tag lengths and whole blocks for CBC,
    the tag does not depend on the old content of the buffer, so every byte of it was written ([aead_roundtrip]
    gives the lengths of the ciphertext pieces). *)
Definition tag_written (okt : nat -> Prop) (lim : Z) (okp : list (list Z) -> list (list Z) -> Prop)
  (enc : list Z -> list (list Z) -> list Z -> list (list Z) * list Z) : Prop :=
  forall aad ps buf buf', bytes aad -> Forall bytes ps -> okp ps ps -> okt (length buf) -> length buf' = length buf ->
  Z.of_nat (length aad + length (concat ps)) < lim -> enc aad ps buf = enc aad ps buf'.
Lemma tag_written_ok : forall C M e mupd mtag s T okt lim okp,
  aead_tag T okt lim okp (etm_encrypt_stream C M e mupd mtag s) -> tag_written okt lim okp (etm_encrypt_stream C M e mupd mtag s).
Proof.
  intros C M e mupd mtag s T okt lim okp A aad ps buf buf' Ba Bp Op Ot Hl Ll.
  assert (E1 := A aad ps buf Ba Bp Op Ot Ll).
  assert (Ot' : okt (length buf')) by (rewrite Hl; exact Ot).
  assert (E2 := A aad ps buf' Ba Bp Op Ot' Ll). rewrite Hl in E2.
  rewrite !enc_stream_parts in *. cbn [fst snd] in *. rewrite E1, E2. reflexivity.
Qed.
Theorem C36_partial :
  (forall key iv, bytes key -> bytes iv -> Z.of_nat (length key) < 2 ^ 60 -> Z.of_nat (length iv) < 2 ^ 60 ->
     tag_written (fun _ => True) (2 ^ 61) any_split (cc_enc_stream (cc_keyed key iv))) /\
  (forall key iv, bytes key -> bytes iv -> Z.of_nat (length key) < 2 ^ 60 -> Z.of_nat (length iv) < 2 ^ 60 ->
     tag_written (fun n => (4 <= n)%nat) (2 ^ 61) any_split (kc_enc_stream (kc_keyed key iv))) /\
  (forall h wf H maxlen, hash_ok h wf H maxlen -> forall key iv e, bytes key -> bytes iv -> hc_ready h wf key iv e ->
     tag_written (fun n => (n <= h_ds h)%nat) (2 ^ 52) any_split (hc_enc_stream h e)) /\
  (forall h wf H maxlen, hash_ok h wf H maxlen -> forall key a e, bytes key -> sh_ready h wf key a e ->
     tag_written (fun n => (n <= h_ds h)%nat) (2 ^ 60) (okpieces a) (sh_enc_stream h e)) /\
  (forall key a e, bytes key -> Z.of_nat (length key) < 2 ^ 60 -> kh_ready key a e ->
     tag_written (fun n => (4 <= n <= 128)%nat) (2 ^ 61) (okpieces a) (kh_enc_stream e)).
Proof.
  split; [|split; [|split; [|split]]].
  - intros key iv Bk Bi Lk Li. exact (tag_written_ok _ _ _ _ _ _ _ _ _ _ (cc_tag_ok key iv Bk Bi Lk Li)).
  - intros key iv Bk Bi Lk Li. exact (tag_written_ok _ _ _ _ _ _ _ _ _ _ (kc_tag_ok key iv Bk Bi Lk Li)).
  - intros h wf H maxlen OK key iv e Bk Bi R. exact (tag_written_ok _ _ _ _ _ _ _ _ _ _ (hc_tag_ok h wf H maxlen OK key iv Bk Bi e R)).
  - intros h wf H maxlen OK key a e Bk R. exact (tag_written_ok _ _ _ _ _ _ _ _ _ _ (sh_tag_ok h wf H maxlen OK key Bk a e R)).
  - intros key a e Bk Lk R. exact (tag_written_ok _ _ _ _ _ _ _ _ _ _ (kh_tag_ok key Bk Lk a e R)).
Qed.
Print Assumptions C36_partial.
