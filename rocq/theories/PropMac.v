(** Properties C14 - C19, C61. Specification: MacSpec.v over the FIPS hash functions (Fips202.v, Sha2Spec.v). *)
From Verif Require Import Bytes Words KeccakModel SpongeSpec Sha3Model Fips202 KeccakBytes Sha2Spec Sha2Model
  HashIface MacSpec MacModel MacProof AsconModel.

(** The library's hashes with a digest not longer than the block: context operations, the contexts a
    caller may hold (any memory with a block buffer of the right size), the standard's function. *)
Inductive lib_hash : forall h : hashops, (hctx h -> Prop) -> (list Z -> list Z) -> Prop :=
| LH_sha3_224 : lib_hash (sha3_ops alg_sha3_224) (fun _ => True) (SHA3 28)
| LH_sha3_256 : lib_hash (sha3_ops alg_sha3_256) (fun _ => True) (SHA3 32)
| LH_sha3_384 : lib_hash (sha3_ops alg_sha3_384) (fun _ => True) (SHA3 48)
| LH_sha3_512 : lib_hash (sha3_ops alg_sha3_512) (fun _ => True) (SHA3 64)
| LH_sha256 : lib_hash sha256_ops (swf cfg256) SHA256
| LH_sha384 : lib_hash sha384_ops (swf cfg512) SHA384
| LH_sha512 : lib_hash sha512_ops (swf cfg512) SHA512.

Lemma lib_hash_ok : forall h wf H, lib_hash h wf H -> exists maxlen, hash_ok h wf H maxlen.
Proof.
  intros h wf H [].
  1-4: exists (2 ^ 64); apply sha3_ops_ok; cbn; tauto.
  - exists (2 ^ 61). exact sha256_ops_ok.
  - exists (2 ^ 61). exact sha384_ops_ok.
  - exists (2 ^ 61). exact sha512_ops_ok.
Qed.
Lemma lib_hash_ok61 : forall h wf H, lib_hash h wf H -> exists maxlen, hash_ok h wf H maxlen /\ 2 ^ 61 <= maxlen /\ (h_bs h <= 144)%nat.
Proof.
  intros h wf H HL. destruct (lib_hash_ok h wf H HL) as [ml OK]. exists ml. split; auto. split; [apply (ok_max _ _ _ _ OK)|apply (ok_bs _ _ _ _ OK)].
Qed.

(** Strings of bytes shorter than 2^60. *)
Definition str (x : list Z) : Prop := bytes x /\ Z.of_nat (length x) < 2 ^ 60.
Definition ostr (x : option (list Z)) : list Z := match x with Some s => s | None => [] end.

(** ** C14 *)
Theorem C14_hmac : forall h wf H, lib_hash h wf H ->
  forall c key ms, wf (hm_h h c) -> str key -> Forall bytes ms -> Z.of_nat (length (concat ms)) < 2 ^ 60 ->
  fst (hmac_final h (hmac_updates h (hmac_init h c key) ms)) = HMAC H (h_bs h) key (concat ms) /\
  hmac_init_oob h (length key) = false.
Proof.
  intros h wf H HL c key ms Hw [Hk Hkl] Hm Hl. destruct (lib_hash_ok61 h wf H HL) as (ml & OK & H61 & Hb). split.
  - apply (hmac_correct h wf H ml OK); auto; lia.
  - unfold hmac_init_oob. pose proof (ok_ds_bs _ _ _ _ OK). apply andb_false_iff. right. apply Nat.ltb_ge. lia.
Qed.
Print Assumptions C14_hmac.

(** A finished HMAC context restarted with lc_hmac_reinit computes HMAC under the same key. *)
Theorem C14_hmac_reinit : forall h wf H, lib_hash h wf H ->
  forall c key ms ms', wf (hm_h h c) -> str key -> Forall bytes ms -> Z.of_nat (length (concat ms)) < 2 ^ 60 ->
  Forall bytes ms' -> Z.of_nat (length (concat ms')) < 2 ^ 60 ->
  let c1 := snd (hmac_final h (hmac_updates h (hmac_init h c key) ms)) in
  fst (hmac_final h (hmac_updates h (hmac_reinit h c1) ms')) = HMAC H (h_bs h) key (concat ms').
Proof.
  intros h wf H HL c key ms ms' Hw [Hk Hkl] Hm Hl Hm' Hl'. destruct (lib_hash_ok61 h wf H HL) as (ml & OK & H61 & Hb).
  apply (hmac_reuse h wf H ml OK key _ (concat ms)); auto; try lia.
  apply (updates_st h wf H ms key _ []); auto. apply (init_st h wf H ml OK); auto. lia.
Qed.
Print Assumptions C14_hmac_reinit.

(** RFC 4231 test case 2: HMAC-SHA-256, key "Jefe", "what do ya want for nothing?" in two pieces. *)
Definition c256 : hmctx sha256_ops := mkHM sha256_ops (mkS (zeros 8) 0 (repeat 7 64)) [] [].
Example C14_case : fst (hmac_final _ (hmac_updates _ (hmac_init _ c256 [0x4a;0x65;0x66;0x65])
   [[0x77;0x68;0x61;0x74;0x20;0x64;0x6f;0x20;0x79;0x61;0x20]; [0x77;0x61;0x6e;0x74;0x20;0x66;0x6f;0x72;0x20;
     0x6e;0x6f;0x74;0x68;0x69;0x6e;0x67;0x3f]])) =
  [0x5b;0xdc;0xc1;0x46;0xbf;0x60;0x75;0x4e;0x6a;0x04;0x24;0x26;0x08;0x95;0x75;0xc7;
   0x5a;0x00;0x3f;0x08;0x9d;0x27;0x39;0x83;0x9d;0xec;0x58;0xb9;0x64;0xec;0x38;0x43].
Proof. vm_compute. reflexivity. Qed.
(** Keys of exactly, and one more than, the block size. *)
Example C14_case2 :
  fst (hmac_final _ (hmac_updates _ (hmac_init _ c256 (repeat 1 64)) [[5]])) = HMAC SHA256 64 (repeat 1 64) [5] /\
  fst (hmac_final _ (hmac_updates _ (hmac_init _ c256 (repeat 1 65)) [[5]])) = HMAC SHA256 64 (repeat 1 65) [5].
Proof. split; vm_compute; reflexivity. Qed.
Example C14_hyp : swf cfg256 (hm_h _ c256).
Proof. reflexivity. Qed.

(** "every hash" fails: Ascon-Hash256 has an 8 byte block and a 32 byte digest [ascon_hash.c: 300-320];
    a key of more than 8 bytes makes lc_hmac_init clear 8 - 32 (wrapped) bytes: undefined behaviour. *)
Definition ascon256_ops : hashops :=
  mkHO actx (fun _ => ascon_256_init) (ascon_absorb asconB) (ascon_squeeze asconB) 8 32.
Theorem C14_ascon_refuted : exists keylen, hmac_init_oob ascon256_ops keylen = true.
Proof. exists 9%nat. reflexivity. Qed.
Print Assumptions C14_ascon_refuted.

(** ** C15: the code stops at 254 digests. *)
Theorem C15_hkdf_partial : forall h wf H, lib_hash h wf H ->
  forall hm ikm salt info dlen, wf (hm_h h hm) -> str ikm -> ikm <> [] -> str (ostr salt) -> str (ostr info) ->
  (dlen <= 254 * h_ds h)%nat ->
  lc_hkdf h hm ikm salt info dlen =
  (0, HKDF_Expand H (h_bs h) (HKDF_Extract H (h_bs h) (h_ds h) salt ikm) (ostr info) dlen).
Proof.
  intros h wf H HL hm ikm salt info dlen Hw Hi Hne Hs Hin Hd. destruct (lib_hash_ok h wf H HL) as (ml & OK).
  apply (hkdf_ok h wf H ml OK); auto. lia.
Qed.
Print Assumptions C15_hkdf_partial.

Theorem C15_hkdf_too_long : forall h wf H, lib_hash h wf H ->
  forall hm ikm salt info dlen, wf (hm_h h hm) -> str ikm -> ikm <> [] -> str (ostr salt) ->
  (254 * h_ds h < dlen)%nat -> lc_hkdf h hm ikm salt info dlen = (EINVAL, []).
Proof.
  intros h wf H HL hm ikm salt info dlen Hw Hi Hne Hs Hd. destruct (lib_hash_ok h wf H HL) as (ml & OK).
  apply (hkdf_limit h wf H ml OK); auto. lia.
Qed.
Print Assumptions C15_hkdf_too_long.

(** RFC 5869 permits 255 digests; the code refuses the last of them. *)
Theorem C15_refuted : exists hm ikm salt info dlen, swf cfg256 (hm_h sha256_ops hm) /\ str ikm /\ ikm <> [] /\
  (dlen <= 255 * 32)%nat /\ lc_hkdf sha256_ops hm ikm salt info dlen = (EINVAL, []) /\
  length (HKDF_Expand SHA256 64 (HKDF_Extract SHA256 64 32 salt ikm) (ostr info) dlen) = dlen.
Proof.
  exists c256, [1], None, None, (254 * 32 + 1)%nat.
  assert (Hs : str [1]) by (split; [repeat constructor; unfold byte; lia|reflexivity]).
  split; [reflexivity|]. split; [exact Hs|]. split; [discriminate|]. split; [lia|]. split.
  - apply (C15_hkdf_too_long _ _ _ LH_sha256); [reflexivity|exact Hs|discriminate|split; [constructor|reflexivity]|apply Nat.lt_add_pos_r; lia].
  - unfold HKDF_Expand. rewrite firstn_length.
    rewrite (stream_length sha256_ops (swf cfg256) SHA256 (2 ^ 61) sha256_ops_ok _ None). reflexivity.
Qed.
Print Assumptions C15_refuted.

(** RFC 5869 test case 3 (SHA-256, no salt given as empty, no info): first 8 bytes. *)
Example C15_case : fst (lc_hkdf sha256_ops c256 (repeat 0x0b 22) (Some []) (Some []) 42) = 0 /\
  firstn 8 (snd (lc_hkdf sha256_ops c256 (repeat 0x0b 22) (Some []) (Some []) 42)) =
  [0x8d;0xa4;0xe7;0x75;0xa5;0x63;0xc1;0x8f].
Proof. split; vm_compute; reflexivity. Qed.

(** ** C16: up to 254 digests in total. *)
Theorem C16_hkdf_rng : forall h wf H, lib_hash h wf H ->
  forall hm seed pers info ns, wf (hm_h h hm) -> str seed -> seed <> [] -> str (ostr pers) -> str (ostr info) ->
  (list_sum ns <= 254 * h_ds h)%nat ->
  exists c, hkdf_rng_seed h (hkdf_fresh h hm) seed pers = (0, c) /\
    map fst (rng_draws h c info ns) = map (fun _ => 0) ns /\
    map (@length Z) (map snd (rng_draws h c info ns)) = ns /\
    concat (map snd (rng_draws h c info ns)) =
    HKDF_Expand H (h_bs h) (HKDF_Extract H (h_bs h) (h_ds h) pers seed) (ostr info) (list_sum ns).
Proof.
  intros h wf H HL hm seed pers info ns Hw Hs Hne Hp Hi Hd. destruct (lib_hash_ok h wf H HL) as (ml & OK).
  apply (hkdf_rng_ok h wf H ml OK); auto. lia.
Qed.
Print Assumptions C16_hkdf_rng.
Example C16_case :
  let c := snd (hkdf_rng_seed sha256_ops (hkdf_fresh _ c256) [1; 2; 3] None) in
  concat (map snd (rng_draws _ c None [5; 40; 0; 33]%nat)) = snd (lc_hkdf sha256_ops c256 [1; 2; 3] None None 78).
Proof. vm_compute. reflexivity. Qed.

(** A seed call that fails (empty seed) leaves the RNG marked seeded, and output is then produced. *)
Theorem C16_failed_seed_generates : forall h hm pers info n,
  (forall x, length (fst (hmac_final h x)) = h_ds h) -> (0 < n < h_ds h)%nat -> (h_ds h <= 64)%nat ->
  let '(r, c) := hkdf_rng_seed h (hkdf_fresh h hm) [] pers in
  r = EINVAL /\ exists o c', hkdf_rng_generate h c info n = (0, o, c') /\ length o = n.
Proof.
  intros h hm pers info n HF Hn H64. cbn [hkdf_rng_seed hkdf_fresh hk_rng hkdf_extract length Nat.eqb hk_hmac hk_partial hk_ptr hk_ctr].
  split; [reflexivity|]. unfold hkdf_rng_generate. cbn [hk_rng negb hk_ptr].
  destruct (Nat.ltb_spec 64 (h_ds h)); [lia|]. cbn [length]. rewrite Nat.sub_0_r.
  destruct (Nat.eqb_spec n 0); [lia|]. unfold hkdf_expand_internal. cbn [hk_ctr].
  destruct (Z.gtb_spec (Z.of_nat n) (Z.of_nat (h_ds h) * (255 - 1))); [nia|].
  destruct n as [|n]; [lia|]. cbn [hkdf_loop Nat.eqb hk_hmac hk_ctr hk_rng].
  set (x := hmac_update _ _ _). specialize (HF x). destruct (hmac_final h x) as [mac hm']. cbn [fst] in HF.
  destruct (Nat.ltb_spec (S n) (h_ds h)); [|lia]. eexists. eexists. split; [reflexivity|].
  cbn [app]. rewrite firstn_length. lia.
Qed.
Print Assumptions C16_failed_seed_generates.

(** ** C17 *)
Theorem C17_kdf_ctr : forall h wf H, lib_hash h wf H ->
  forall c key label dlen, wf (hm_h h c) -> str key -> str label ->
  lc_kdf_ctr h c key label dlen =
  if Z.of_nat dlen >? INT_MAX then (EMSGSIZE, []) else (0, KDF_CTR H (h_bs h) key label dlen).
Proof. intros h wf H HL c key label dlen Hw Hk Hl. destruct (lib_hash_ok h wf H HL) as (ml & OK). apply (kdf_ctr_ok h wf H ml OK); auto. Qed.
Print Assumptions C17_kdf_ctr.

Theorem C17_kdf_fb : forall h wf H, lib_hash h wf H ->
  forall c key iv label dlen, wf (hm_h h c) -> str key -> str label -> bytes iv ->
  lc_kdf_fb h c key iv label dlen =
  if Z.of_nat dlen >? INT_MAX then (EMSGSIZE, [])
  else if negb (length iv =? h_ds h)%nat then (EINVAL, []) else (0, KDF_FB H (h_bs h) key iv label dlen).
Proof. intros h wf H HL c key iv label dlen Hw Hk Hl Hi. destruct (lib_hash_ok h wf H HL) as (ml & OK). apply (kdf_fb_ok h wf H ml OK); auto. Qed.
Print Assumptions C17_kdf_fb.

(** Missing for the full claim: the empty label, where the code deviates (next theorem). *)
Theorem C17_kdf_dpi_partial : forall h wf H, lib_hash h wf H ->
  forall c key label dlen, wf (hm_h h c) -> str key -> str label -> label <> [] ->
  lc_kdf_dpi h c key label dlen =
  if Z.of_nat dlen >? INT_MAX then (EMSGSIZE, []) else (0, KDF_DPI H (h_bs h) key label dlen).
Proof. intros h wf H HL c key label dlen Hw Hk Hl Hi. destruct (lib_hash_ok h wf H HL) as (ml & OK). apply (kdf_dpi_ok h wf H ml OK); auto. Qed.
Print Assumptions C17_kdf_dpi_partial.

(** With an empty label A(1) is HMAC(key, 0^h) in the code, HMAC(key, "") in SP 800-108. *)
Theorem C17_kdf_dpi_refuted : exists c key dlen, swf cfg256 (hm_h sha256_ops c) /\ str key /\
  fst (lc_kdf_dpi sha256_ops c key [] dlen) = 0 /\
  snd (lc_kdf_dpi sha256_ops c key [] dlen) <> KDF_DPI SHA256 64 key [] dlen.
Proof.
  exists c256, [1], 1%nat. split; [reflexivity|]. split; [split; [repeat constructor; unfold byte; lia|reflexivity]|].
  vm_compute. split; [reflexivity|discriminate].
Qed.
Print Assumptions C17_kdf_dpi_refuted.

Example C17_case : lc_kdf_ctr sha256_ops c256 [1; 2] [3] 70 = (0, KDF_CTR SHA256 64 [1; 2] [3] 70) /\
  lc_kdf_fb sha256_ops c256 [1; 2] (repeat 9 32) [3] 70 = (0, KDF_FB SHA256 64 [1; 2] (repeat 9 32) [3] 70) /\
  lc_kdf_dpi sha256_ops c256 [1; 2] [3] 70 = (0, KDF_DPI SHA256 64 [1; 2] [3] 70).
Proof.
  assert (Hs : forall l, Forall (fun x => 0 <= x < 256) l -> (length l < 100)%nat -> str l).
  { intros l H1 H2. split; [exact H1|lia]. }
  assert (W : swf cfg256 (hm_h sha256_ops c256)) by reflexivity.
  assert (S1 : str [1; 2]) by (apply Hs; [repeat constructor; lia|cbn; lia]).
  assert (S2 : str [3]) by (apply Hs; [repeat constructor; lia|cbn; lia]).
  assert (S3 : bytes (repeat 9 32)) by (repeat constructor; unfold byte; lia).
  split; [|split].
  - rewrite (C17_kdf_ctr _ _ _ LH_sha256 c256 [1; 2] [3] 70 W S1 S2). reflexivity.
  - rewrite (C17_kdf_fb _ _ _ LH_sha256 c256 [1; 2] (repeat 9 32) [3] 70 W S1 S2 S3). reflexivity.
  - rewrite (C17_kdf_dpi_partial _ _ _ LH_sha256 c256 [1; 2] [3] 70 W S1 S2); [reflexivity|discriminate].
Qed.

(** ** C61: the KDF-CTR RNG does not continue the SP 800-108 stream: a draw that is no multiple of the digest
    leaves the HMAC context finalised, the next draw is not HMAC(seed, counter || label) any more. *)
Theorem C61_refuted : exists c seed, swf cfg256 (hm_h sha256_ops (kc_hmac sha256_ops c)) /\
  let '(r, c1) := kdf_ctr_rng_seed sha256_ops c seed [] in
  let '(r1, o1, c2) := kdf_ctr_rng_generate sha256_ops c1 [] 16 in
  let '(r2, o2, c3) := kdf_ctr_rng_generate sha256_ops c2 [] 32 in
  r = 0 /\ r1 = 0 /\ r2 = 0 /\
  o1 = firstn 16 (HMAC SHA256 64 seed (be32 1)) /\ o2 <> HMAC SHA256 64 seed (be32 2).
Proof.
  exists (mkKC _ c256 0 false), [1; 2; 3]. split; [reflexivity|].
  vm_compute. repeat split. discriminate.
Qed.
Print Assumptions C61_refuted.

(** ** C18 *)
Theorem C18_pbkdf2 : forall h wf H, lib_hash h wf H ->
  forall c pw salt count keylen, wf (hm_h h c) -> str pw -> str salt ->
  lc_pbkdf2 h c pw salt count keylen =
  if Z.of_nat keylen >? INT_MAX then (EMSGSIZE, [])
  else if (count =? 0)%nat then (EINVAL, []) else (0, PBKDF2 H (h_bs h) (h_ds h) pw salt count keylen).
Proof. intros h wf H HL c pw salt count keylen Hw Hp Hs. destruct (lib_hash_ok h wf H HL) as (ml & OK). apply (pbkdf2_ok h wf H ml OK); auto. Qed.
Print Assumptions C18_pbkdf2.
(** PBKDF2-HMAC-SHA256("password", "salt", 2, 32), RFC 6070 style vector: first 8 bytes. *)
Example C18_case : firstn 8 (snd (lc_pbkdf2 sha256_ops c256 [0x70;0x61;0x73;0x73;0x77;0x6f;0x72;0x64] [0x73;0x61;0x6c;0x74] 2 32)) =
  [0xae;0x4d;0x0c;0x95;0xaf;0x6b;0x46;0xd3].
Proof. vm_compute. reflexivity. Qed.

(** ** C19: correct for up to 9 digits; wrong for 10; division by zero from 32 digits on. *)
Theorem C19_hotp_partial : forall c key counter digits, swf cfg256 (hm_h sha256_ops c) -> str key -> (digits <= 9)%nat ->
  lc_hotp sha256_ops c key counter digits = Some (HOTP SHA256 64 32 key counter digits).
Proof. intros c key counter digits Hw Hk Hd. apply (hotp_ok sha256_ops _ _ _ sha256_ops_ok); auto. cbn. lia. Qed.
Print Assumptions C19_hotp_partial.

Theorem C19_totp_partial : forall c key now step digits, swf cfg256 (hm_h sha256_ops c) -> str key -> (digits <= 9)%nat ->
  0 <= now < 2 ^ 63 -> 0 < step < 2 ^ 32 ->
  lc_totp sha256_ops c key now step digits = Some (HOTP SHA256 64 32 key (now / step) digits).
Proof.
  intros c key now step digits Hw Hk Hd Hn Hs. unfold lc_totp.
  destruct (Z.eqb_spec step 0); [lia|]. rewrite C19_hotp_partial by auto. rewrite t64_mod, Z.mod_small by lia. reflexivity.
Qed.
Print Assumptions C19_totp_partial.

Lemma pow10_32 : forall d, pow10 (32 + d) 1 = 0.
Proof.
  assert (A : forall d m, pow10 d m = u32 (pow10 d m) \/ d = O) by (intros [|d] m; [right; reflexivity|left]; revert m;
    induction d; intros m; [cbn [pow10]; unfold u32; rewrite Z.mod_mod by lia; reflexivity|]; cbn [pow10] in *; apply IHd).
  assert (Z0 : forall d, pow10 d 0 = 0) by (induction d; [reflexivity|exact IHd]).
  intros d. assert (E : forall a b m, pow10 (a + b) m = pow10 b (pow10 a m)) by (induction a; intros; [reflexivity|cbn [pow10 Nat.add]; apply IHa]).
  rewrite E. replace (pow10 32 1) with 0 by (vm_compute; reflexivity). apply Z0.
Qed.
Theorem C19_division_by_zero : forall c key counter digits now,
  (32 <= digits)%nat -> lc_hotp sha256_ops c key counter digits = None /\
  lc_totp sha256_ops c key now 0 6 = None.
Proof.
  intros c key counter digits now Hd. split; [|reflexivity]. unfold lc_hotp.
  replace digits with (32 + (digits - 32))%nat by lia. rewrite pow10_32.
  destruct (hmac_final sha256_ops _) as [md ?]. reflexivity.
Qed.
Print Assumptions C19_division_by_zero.

(** Ten digits: 10^10 wraps in the uint32_t modulus. *)
Theorem C19_refuted : exists c key counter, swf cfg256 (hm_h sha256_ops c) /\ str key /\
  lc_hotp sha256_ops c key counter 10 = Some 265703779 /\ HOTP SHA256 64 32 key counter 10 = 1675769187.
Proof.
  exists c256, [1], 0. split; [reflexivity|]. split; [split; [repeat constructor; unfold byte; lia|reflexivity]|].
  split; vm_compute; reflexivity.
Qed.
Print Assumptions C19_refuted.
