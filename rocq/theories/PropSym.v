(** Properties C37 - C45: block ciphers, modes, ChaCha20. Specifications: AesSpec.v (FIPS 197), ModesSpec.v
    (SP 800-38A, RFC 3394, RFC 8439). *)
From Verif Require Import Bytes Words AesSpec AesModel AesProof AesScr ModesSpec ModesModel ModesProof KwProof ChaChaProof SymTop.

Definition hexkey128 : list Z := [0x2b;0x7e;0x15;0x16;0x28;0xae;0xd2;0xa6;0xab;0xf7;0x15;0x88;0x09;0xcf;0x4f;0x3c].
Definition upto (n : nat) : list Z := map Z.of_nat (seq 0 n).
Definition fresh : aesctx := mkAes [] 0 0.
Lemma upto_bytes : forall n, (n <= 256)%nat -> bytes (upto n).
Proof. intros n H. unfold upto. apply Forall_forall. intros x Hx. apply in_map_iff in Hx. destruct Hx as (k&<-&Hk). apply in_seq in Hk. unfold byte. lia. Qed.

(** * C37 *)
(** [c] any context memory, [out], [out'] any output buffers. *)
Theorem C37_aes_roundtrip : forall c key b out out',
  (length key = 16 \/ length key = 24 \/ length key = 32)%nat -> bytes key -> length b = 16%nat -> bytes b ->
  let '(ret, c') := aes_setkey c key in
  ret = 0 /\
  aes_decrypt c' (aes_encrypt c' b out) out' = b /\
  aes_encrypt c' (aes_decrypt c' b out) out' = b.
Proof.
  intros c key b out out' HL HB L B. pose proof (aes_enc_spec c key b out HL HB L B) as E1.
  pose proof (aes_dec_spec c key b out HL HB L B) as E2.
  destruct (setkey_ok c key HL HB) as (c'&_&_&E&_). rewrite E in *. cbn [snd] in *. split; [reflexivity|].
  rewrite E1, E2. destruct (AES_st16 key b HL HB L B). destruct (AES_inv_st16 key b HL HB L B).
  pose proof (aes_enc_spec c key (AES_inv key b) out' HL HB) as E3. pose proof (aes_dec_spec c key (AES key b) out' HL HB) as E4.
  rewrite E in *. cbn [snd] in *. split; [rewrite E4 by auto; apply AES_inv_AES; auto|rewrite E3 by auto; apply AES_AES_inv; auto].
Qed.
Print Assumptions C37_aes_roundtrip.
Example C37_example : length (upto 24) = 24%nat /\ bytes (upto 24) /\ length (upto 16) = 16%nat /\ bytes (upto 16).
Proof. repeat split; apply upto_bytes; lia. Qed.

(** * C38 *)
Theorem C38_aes_fips197 : forall c key b out,
  (length key = 16 \/ length key = 24 \/ length key = 32)%nat -> bytes key -> length b = 16%nat -> bytes b ->
  let c' := snd (aes_setkey c key) in
  fst (aes_setkey c key) = 0 /\
  ae_rk c' = concat (KeyExpansion (length key / 4) (rounds_of (length key)) key) /\
  aes_encrypt c' b out = AES key b /\
  aes_decrypt c' b out = AES_inv key b.
Proof.
  intros c key b out HL HB L B. cbv zeta. pose proof (aes_enc_spec c key b out HL HB L B) as E1.
  pose proof (aes_dec_spec c key b out HL HB L B) as E2.
  destruct (setkey_ok c key HL HB) as (c'&nk&nr&E&G&Hk&Er&En&R&_). rewrite E in *. cbn [fst snd] in *.
  rewrite <- Er, <- En. auto.
Qed.
Print Assumptions C38_aes_fips197.
Theorem C38_sbox : forall x, 0 <= x < 256 -> getSBoxValue x = SBOX x /\ getSBoxInvert x = INVSBOX x /\ INVSBOX (SBOX x) = x.
Proof.
  intros x H. split; [apply sbox_spec, H|]. split; [apply rsbox_spec, H|]. revert x H.
  apply (forall_byte_eq (fun x => INVSBOX (SBOX x)) (fun x => x)). vm_compute. reflexivity.
Qed.
Print Assumptions C38_sbox.
(** FIPS 197 appendix B and C.1 - C.3. *)
Example C38_fips_B :
  AES hexkey128 [0x32;0x43;0xf6;0xa8;0x88;0x5a;0x30;0x8d;0x31;0x31;0x98;0xa2;0xe0;0x37;0x07;0x34]
  = [0x39;0x25;0x84;0x1d;0x02;0xdc;0x09;0xfb;0xdc;0x11;0x85;0x97;0x19;0x6a;0x0b;0x32].
Proof. vm_compute. reflexivity. Qed.
Definition c_plain : list Z := map (fun i => 0x11 * i) (upto 16).
Example C38_fips_C1 : aes_encrypt (snd (aes_setkey fresh (upto 16))) c_plain []
  = [0x69;0xc4;0xe0;0xd8;0x6a;0x7b;0x04;0x30;0xd8;0xcd;0xb7;0x80;0x70;0xb4;0xc5;0x5a].
Proof. vm_compute. reflexivity. Qed.
Example C38_fips_C2 : aes_encrypt (snd (aes_setkey fresh (upto 24))) c_plain []
  = [0xdd;0xa9;0x7c;0xa4;0x86;0x4c;0xdf;0xe0;0x6e;0xaf;0x70;0xa0;0xec;0x0d;0x71;0x91].
Proof. vm_compute. reflexivity. Qed.
Example C38_fips_C3 : aes_encrypt (snd (aes_setkey fresh (upto 32))) c_plain []
  = [0x8e;0xa2;0xb7;0xca;0x51;0x67;0x45;0xbf;0xea;0xfc;0x49;0x90;0x4b;0x49;0x60;0x89].
Proof. vm_compute. reflexivity. Qed.

(** * C39 *)
Theorem C39_scr_equals_table : forall c key b out,
  (length key = 16 \/ length key = 24 \/ length key = 32)%nat -> bytes key -> length b = 16%nat -> bytes b ->
  let nk := (length key / 4)%nat in let nr := (nk + 6)%nat in
  let c' := snd (aes_setkey c key) in
  let w := aes_key_expansion_scr nk nr key in
  aes_cipher_scr nr w b = aes_encrypt c' b out /\ aes_inv_cipher_scr nr w b = aes_decrypt c' b out.
Proof.
  intros c key b out HL HB L B. cbv zeta.
  destruct (setkey_ok c key HL HB) as (c'&nk&nr&E&G&Hk&Er&En&R&N&W&LW&K&P). rewrite E. cbn [snd]. rewrite <- En.
  assert (X : (nk + 6)%nat = nr) by (destruct G as [[-> ->]|[[-> ->]|[-> ->]]]; reflexivity). rewrite X.
  rewrite (scr_key_expansion_eq nk nr key) by auto. rewrite enc_is, dec_is by exact L. split.
  - apply (scr_cipher_eq nr (KeyExpansion nk nr key)); auto. split; auto.
  - apply (scr_inv_cipher_eq nr (KeyExpansion nk nr key)); auto. split; auto.
Qed.
Print Assumptions C39_scr_equals_table.
Example C39_example : aes_cipher_scr 10 (aes_key_expansion_scr 4 10 (upto 16)) c_plain
  = [0x69;0xc4;0xe0;0xd8;0x6a;0x7b;0x04;0x30;0xd8;0xcd;0xb7;0x80;0x70;0xb4;0xc5;0x5a].
Proof. vm_compute. reflexivity. Qed.

(** * C40: false. Full statement: for every context and every key whose length is not 16, 24, 32, setkey
    returns a negative value and the context afterwards encrypts nothing. *)
(** What the code does instead, for every such key: success, and the previous key stays in use. *)
Theorem C40_invalid_length : forall c key,
  length key <> 16%nat -> length key <> 24%nat -> length key <> 32%nat -> aes_setkey c key = (0, c).
Proof.
  intros c key A B C. unfold aes_setkey, aes_set_type.
  rewrite (proj2 (Nat.eqb_neq _ _) A), (proj2 (Nat.eqb_neq _ _) B), (proj2 (Nat.eqb_neq _ _) C). reflexivity.
Qed.
Print Assumptions C40_invalid_length.
Theorem C40_refuted : exists c key b old, length key = 17%nat /\ length b = 16%nat /\
  fst (aes_setkey c key) = 0 /\
  aes_usable (snd (aes_setkey c key)) /\
  aes_encrypt (snd (aes_setkey c key)) b [] = AES old b.
Proof.
  exists (snd (aes_setkey fresh (upto 16))), (upto 17), c_plain, (upto 16).
  split; [reflexivity|]. split; [reflexivity|]. rewrite C40_invalid_length by discriminate. split; [reflexivity|].
  split; [vm_compute; lia|]. cbn [snd]. apply (aes_enc_spec fresh (upto 16)); [left; reflexivity|apply upto_bytes; lia|reflexivity|].
  vm_compute. repeat constructor; discriminate.
Qed.
Print Assumptions C40_refuted.
(** On a context that never had a key the "successful" setkey leaves Nr = 0: the block functions leave round_key. *)
Theorem C40_fresh_refuted : exists key, fst (aes_setkey fresh key) = 0 /\ ~ aes_usable (snd (aes_setkey fresh key)).
Proof. exists []. split; [reflexivity|]. intros [H _]. cbn in H. lia. Qed.
Print Assumptions C40_fresh_refuted.
Theorem C40_valid_partial : forall c key, (length key = 16 \/ length key = 24 \/ length key = 32)%nat -> bytes key ->
  fst (aes_setkey c key) = 0 /\ aes_usable (snd (aes_setkey c key)).
Proof.
  intros c key HL HB. destruct (setkey_ok c key HL HB) as (c'&nk&nr&E&G&Hk&Er&En&R&N&W&LW&K&P). rewrite E. cbn [fst snd].
  split; [reflexivity|]. unfold aes_usable. rewrite N. split; [exact P|]. destruct K as [KL _]. lia.
Qed.
Print Assumptions C40_valid_partial.

(** * C41 *)
(** The data in calls of whole blocks ([bss]: the blocks of each call), decrypted with any other cutting [css]
    of the ciphertext. *)
Theorem C41_cbc : forall c c2 key iv bss css, 
  (length key = 16 \/ length key = 24 \/ length key = 32)%nat -> bytes key -> length iv = 16%nat -> bytes iv ->
  Forall (Forall (fun b => length b = 16%nat /\ bytes b)) bss ->
  let E := enc_of (snd (aes_setkey c key)) in let D := dec_of (snd (aes_setkey c2 key)) in
  mode_cbc_setiv iv = Some iv /\
  fst (cbc_enc_run E iv (map (@concat Z) bss)) = concat (CBC_enc (AES key) iv (concat bss)) /\
  (concat css = CBC_enc (AES key) iv (concat bss) ->
   fst (cbc_dec_run D iv (map (@concat Z) css)) = concat (concat bss)).
Proof.
  intros c c2 key iv bss css HL HB LI BI HF. cbv zeta. assert (HI : blk iv) by (split; auto).
  split; [unfold mode_cbc_setiv; rewrite LI; reflexivity|]. split; [apply cbc_top; auto|].
  intros E. assert (X : Forall blk (concat css)).
  { rewrite E. apply CBC_enc_blk; auto. apply Forall_concat_blk, HF. }
  assert (Y : Forall (Forall blk) css).
  { clear E. induction css as [|a css IH]; [constructor|]. cbn [concat] in X. apply Forall_app in X. destruct X. constructor; auto. }
  rewrite cbc_dec_top by auto. rewrite E. rewrite CBC_inverse by (auto using Forall_concat_blk). reflexivity.
Qed.
Print Assumptions C41_cbc.
Theorem C41_cbc_decrypt_spec : forall c key iv css,
  (length key = 16 \/ length key = 24 \/ length key = 32)%nat -> bytes key ->
  Forall (Forall (fun b => length b = 16%nat /\ bytes b)) css ->
  fst (cbc_dec_run (dec_of (snd (aes_setkey c key))) iv (map (@concat Z) css)) = concat (CBC_dec (AES_inv key) iv (concat css)).
Proof. intros. apply cbc_dec_top; auto. Qed.
Print Assumptions C41_cbc_decrypt_spec.
(** Beyond the property: the bytes behind the last whole block are never written; with in = out they stay
    plaintext. *)
Theorem C41_tail_untouched : forall E iv inp out, (forall b, length b = 16%nat -> length (E b) = 16%nat) ->
  length out = length inp -> length iv = 16%nat ->
  skipn (length inp / 16 * 16) (fst (mode_cbc_encrypt E iv inp out)) = skipn (length inp / 16 * 16) out.
Proof. intros E iv inp out LE H1 H2. apply cbc_encrypt_tail; auto. Qed.
Print Assumptions C41_tail_untouched.
(** SP 800-38A F.2.1, first two blocks, in two calls. *)
Definition p38a : list (list Z) :=
  [[0x6b;0xc1;0xbe;0xe2;0x2e;0x40;0x9f;0x96;0xe9;0x3d;0x7e;0x11;0x73;0x93;0x17;0x2a];
   [0xae;0x2d;0x8a;0x57;0x1e;0x03;0xac;0x9c;0x9e;0xb7;0x6f;0xac;0x45;0xaf;0x8e;0x51]].
Example C41_sp800_38a : fst (cbc_enc_run (enc_of (snd (aes_setkey fresh hexkey128))) (upto 16) p38a)
  = [0x76;0x49;0xab;0xac;0x81;0x19;0xb2;0x46;0xce;0xe9;0x8e;0x9b;0x12;0xe9;0x19;0x7d;
     0x50;0x86;0xcb;0x9b;0x50;0x72;0x19;0xee;0x95;0xdb;0x11;0x3a;0x91;0x76;0x78;0xb2].
Proof. vm_compute. reflexivity. Qed.

(** * C42 *)
Theorem C42_ctr : forall c key iv data,
  (length key = 16 \/ length key = 24 \/ length key = 32)%nat -> bytes key -> length iv = 16%nat -> bytes iv ->
  let E := enc_of (snd (aes_setkey c key)) in
  exists ctr, mode_ctr_setiv iv = Some ctr /\
    fst (mode_ctr_crypt E ctr data) = CTR (AES key) (be_val iv) data /\
    fst (mode_ctr_crypt E ctr (fst (mode_ctr_crypt E ctr data))) = data /\
    ctr128_to_ptr (snd (mode_ctr_crypt E ctr data))
      = be_bytes 16 ((be_val iv + Z.of_nat ((length data + 15) / 16)) mod 2 ^ 128).
Proof.
  intros c key iv data HL HB LI BI. cbv zeta. unfold mode_ctr_setiv. rewrite LI. eexists. split; [reflexivity|].
  destruct (ptr_ctr iv LI BI) as [W V]. pose proof (enc_of_len c key HL HB) as LE.
  destruct (ctr_crypt_spec _ LE (ptr_to_ctr128 iv) data W) as (A&B&C). rewrite V in *.
  rewrite CTR_ext in A by auto. split; [exact A|]. split.
  - destruct (ctr_crypt_spec _ LE (ptr_to_ctr128 iv) (CTR (AES key) (be_val iv) data) W) as (A'&_&_).
    rewrite A, A', V. rewrite <- (CTR_ext c key HL HB). apply CTR_invol, LE.
  - rewrite ctr_ptr by exact B. rewrite C. reflexivity.
Qed.
Print Assumptions C42_ctr.
(** One increment, on all pairs of 64-bit words. *)
Theorem C42_increment : forall hi lo, 0 <= hi < 2 ^ 64 -> 0 <= lo < 2 ^ 64 ->
  let '(hi', lo') := ctr128_inc (hi, lo) in
  0 <= hi' < 2 ^ 64 /\ 0 <= lo' < 2 ^ 64 /\ hi' * 2 ^ 64 + lo' = (hi * 2 ^ 64 + lo + 1) mod 2 ^ 128.
Proof.
  intros hi lo Hh Hlo. assert (W : cwf (hi, lo)) by (split; assumption).
  pose proof (ctr_inc_wf _ W) as [W1 W2]. pose proof (ctr_inc_val _ W) as V.
  destruct (ctr128_inc (hi, lo)) as [h l]. split; [exact W1|]. split; [exact W2|exact V].
Qed.
Print Assumptions C42_increment.
(** SP 800-38A F.5.1. *)
Example C42_sp800_38a :
  let iv := map (fun i => 0xf0 + i) (upto 16) in
  fst (mode_ctr_crypt (enc_of (snd (aes_setkey fresh hexkey128))) (ptr_to_ctr128 iv) (concat p38a))
  = [0x87;0x4d;0x61;0x91;0xb6;0x20;0xe3;0x26;0x1b;0xef;0x68;0x64;0x99;0x0d;0xb6;0xce;
     0x98;0x06;0xf6;0x6b;0x79;0x70;0xfd;0xff;0x86;0x17;0x18;0x7b;0xb9;0xff;0xfd;0xff].
Proof. vm_compute. reflexivity. Qed.
Example C42_wrap : ctr128_inc (2 ^ 64 - 1, 2 ^ 64 - 1) = (0, 0) /\ ctr128_inc (7, 2 ^ 64 - 1) = (8, 0).
Proof. split; reflexivity. Qed.

(** * C43: false. Full statement: for all chunks, ctr_run E c chunks = CTR (AES key) (cval c) (concat chunks), and the same
    for ChaCha20. True when every chunk but the last is a multiple of 16 (64) bytes: *)
Theorem C43_ctr_partial : forall c key iv chunks lst,
  (length key = 16 \/ length key = 24 \/ length key = 32)%nat -> bytes key -> length iv = 16%nat -> bytes iv ->
  Forall (fun d => exists k, length d = (k * 16)%nat) chunks ->
  ctr_run (enc_of (snd (aes_setkey c key))) (ptr_to_ctr128 iv) (chunks ++ [lst]) = CTR (AES key) (be_val iv) (concat chunks ++ lst).
Proof.
  intros c key iv chunks lst HL HB LI BI HF. destruct (ptr_ctr iv LI BI) as [W V].
  rewrite (ctr_run_spec _ (enc_of_len c key HL HB)) by auto. rewrite V. apply CTR_ext; auto.
Qed.
Print Assumptions C43_ctr_partial.
Theorem C43_chacha20_partial : forall key counter nonce chunks lst, 0 <= counter < 2 ^ 32 ->
  Forall (fun d => exists k, length d = (k * 64)%nat) chunks ->
  cc20_run (CC20_state key counter nonce) (chunks ++ [lst]) = CHACHA20 key counter nonce (concat chunks ++ lst).
Proof. intros. apply cc20_run_spec; auto. Qed.
Print Assumptions C43_chacha20_partial.
Theorem C43_ctr_refuted : exists key iv a b, length key = 16%nat /\ length iv = 16%nat /\ bytes key /\ bytes iv /\
  ctr_run (enc_of (snd (aes_setkey fresh key))) (ptr_to_ctr128 iv) [a; b]
  <> ctr_run (enc_of (snd (aes_setkey fresh key))) (ptr_to_ctr128 iv) [a ++ b].
Proof.
  exists (upto 16), (upto 16), [0], [0]. split; [reflexivity|]. split; [reflexivity|].
  split; [apply upto_bytes; lia|]. split; [apply upto_bytes; lia|]. vm_compute. discriminate.
Qed.
Print Assumptions C43_ctr_refuted.
Theorem C43_chacha20_refuted : exists key nonce a b, length key = 32%nat /\ length nonce = 12%nat /\
  cc20_run (CC20_state key 1 nonce) [a; b] <> cc20_run (CC20_state key 1 nonce) [a ++ b].
Proof. exists (upto 32), (upto 12), [0], [0]. split; [reflexivity|]. split; [reflexivity|]. vm_compute. discriminate. Qed.
Print Assumptions C43_chacha20_refuted.

(** * C44 *)
Definition semiblock_list (P : list (list Z)) : Prop := Forall (fun b => length b = 8%nat /\ bytes b) P.
Theorem C44_wrap : forall c key tag P out,
  (length key = 16 \/ length key = 24 \/ length key = 32)%nat -> bytes key -> semiblock_list P -> (2 <= length P)%nat ->
  exists tag', lc_aes_kw_encrypt (enc_of (snd (aes_setkey c key))) tag (concat P) out = Some (KW_wrap (AES key) P, tag').
Proof.
  intros c key tag P out HL HB S N. rewrite <- (KW_wrap_ext c key HL HB P S). apply kw_encrypt_spec; auto.
Qed.
Print Assumptions C44_wrap.
Theorem C44_unwrap : forall c key A C out,
  (length key = 16 \/ length key = 24 \/ length key = 32)%nat -> bytes key ->
  length A = 8%nat -> bytes A -> semiblock_list C -> (2 <= length C)%nat ->
  let '(A', P) := KW_unwrap (AES_inv key) A C in
  exists ret, lc_aes_kw_decrypt (dec_of (snd (aes_setkey c key))) (A ++ concat C) out = Some (ret, concat P, A') /\
    (ret = 0 <-> A' = repeat 0xA6 8) /\ (ret = 0 \/ ret = - EBADMSG).
Proof.
  intros c key A C out HL HB LA BA S N. rewrite <- (KW_unwrap_ext c key HL HB A C LA BA S).
  rewrite kw_decrypt_spec by auto. destruct (KW_unwrap _ A C) as [A' P]. eexists. split; [reflexivity|].
  pose proof (leq_eq A' KW_IV) as Q. fold KW_IV. destruct (leq A' KW_IV).
  - split; [|left; reflexivity]. split; intros _; [apply Q; reflexivity|reflexivity].
  - split; [|right; reflexivity]. split; [intros H; discriminate H|]. intros H. apply Q in H. discriminate.
Qed.
Print Assumptions C44_unwrap.
Theorem C44_roundtrip : forall c c2 key tag P out out2,
  (length key = 16 \/ length key = 24 \/ length key = 32)%nat -> bytes key -> semiblock_list P -> (2 <= length P)%nat ->
  exists w tag', lc_aes_kw_encrypt (enc_of (snd (aes_setkey c key))) tag (concat P) out = Some (w, tag') /\
    length w = (8 + length (concat P))%nat /\
    exists tag2, lc_aes_kw_decrypt (dec_of (snd (aes_setkey c2 key))) w out2 = Some (0, concat P, tag2).
Proof.
  intros c c2 key tag P out out2 HL HB S N. destruct (C44_wrap c key tag P out HL HB S N) as [t E].
  exists (KW_wrap (AES key) P), t. split; [exact E|].
  destruct (unwrap_wrap (AES key) (AES_inv key)) with (P := P) as (A&C&E1&LA&SC&LC&U); auto.
  - intros; apply AES_st16; auto.
  - intros; apply AES_inv_AES; auto.
  - assert (BA : bytes A).
    { assert (X : kwst (length P) (fold_left (wrap_step (AES key) (length P)) (kw_steps (length P)) (KW_IV, P))).
      { apply (fold_inv (length P) (wrap_step (AES key) (length P)) (unwrap_step (AES_inv key) (length P))).
        - intros. apply (wrap_inv (AES key) (AES_inv key)); auto; intros; [apply AES_st16|apply AES_inv_AES]; auto.
        - apply kw_steps_range.
        - apply kwst_iv, S. }
      unfold KW_wrap in E1. destruct (fold_left _ _ _) as [A0 R0]. destruct X as (X1&X2&_). cbn [fst snd] in *.
      assert (A0 = A); [|subst; auto]. apply (f_equal (firstn 8)) in E1.
      rewrite !firstn_app, X1, LA, !Nat.sub_diag, !firstn_O, !app_nil_r in E1. rewrite !firstn_all2 in E1 by lia. exact E1. }
    split.
    { rewrite E1, app_length, (semis_len C SC), (semis_len P S), LA, LC. reflexivity. }
    rewrite E1. pose proof (C44_unwrap c2 key A C out2 HL HB LA BA SC) as Q. rewrite U in Q.
    destruct Q as (ret&Q1&Q2&_); [lia|]. exists KW_IV. rewrite Q1. rewrite (proj2 Q2 eq_refl). reflexivity.
Qed.
Print Assumptions C44_roundtrip.
(** Whatever is accepted (n >= 2 semiblocks after the first) is a wrapping: of the data that is returned. *)
Theorem C44_accepted_is_wrapped : forall c key A C out p tag,
  (length key = 16 \/ length key = 24 \/ length key = 32)%nat -> bytes key ->
  length A = 8%nat -> bytes A -> semiblock_list C -> (2 <= length C)%nat ->
  lc_aes_kw_decrypt (dec_of (snd (aes_setkey c key))) (A ++ concat C) out = Some (0, p, tag) ->
  exists P, semiblock_list P /\ length P = length C /\ p = concat P /\ KW_wrap (AES key) P = A ++ concat C.
Proof.
  intros c key A C out p tag HL HB LA BA S N E. pose proof (C44_unwrap c key A C out HL HB LA BA S N) as Q.
  destruct (KW_unwrap (AES_inv key) A C) as [A' P] eqn:U. destruct Q as (ret&Q1&Q2&_). rewrite E in Q1.
  injection Q1 as <- -> ->. pose proof (proj1 Q2 eq_refl) as ->.
  destruct (wrap_unwrap (AES key) (AES_inv key)) with (A := A) (C := C) (R := P) as (X&Y&Z); auto.
  - intros; apply AES_inv_st16; auto.
  - intros; apply AES_AES_inv; auto.
  - exists P. auto.
Qed.
Print Assumptions C44_accepted_is_wrapped.
(** RFC 3394 section 4.1. *)
Example C44_rfc3394 :
  let P := [map (fun i => 0x11 * i) (upto 8); map (fun i => 0x88 + 0x11 * i) (upto 8)] in
  lc_aes_kw_encrypt (enc_of (snd (aes_setkey fresh (upto 16)))) (repeat 0 8) (concat P) (repeat 0 24)
  = Some ([0x1F;0xA6;0x8B;0x0A;0x81;0x12;0xB4;0x47; 0xAE;0xF3;0x4B;0xD8;0xFB;0x5A;0x7B;0x82;
           0x9D;0x3E;0x86;0x23;0x71;0xD2;0xCF;0xE5], [0x1F;0xA6;0x8B;0x0A;0x81;0x12;0xB4;0x47]).
Proof. vm_compute. reflexivity. Qed.
(** "For every input length" is false: an input of 8 to 23 bytes that starts with A6..A6 is accepted under every
    key, and nothing is written to the output. *)
Theorem C44_short_accepted : forall D rest out, (length rest < 16)%nat ->
  lc_aes_kw_decrypt D (repeat 0xA6 8 ++ rest) out = Some (0, out, repeat 0xA6 8).
Proof.
  intros D rest out H. unfold lc_aes_kw_decrypt.
  destruct (Nat.ltb_spec (length (repeat 0xA6 8 ++ rest)) 8) as [L|L]; [rewrite app_length in L; cbn in L; lia|].
  change (firstn 8 (repeat 0xA6 8 ++ rest)) with (repeat 0xA6 8). change (skipn 8 (repeat 0xA6 8 ++ rest)) with rest.
  unfold mode_kw_decrypt. destruct (Nat.ltb_spec (length rest) 16); [reflexivity|lia].
Qed.
Print Assumptions C44_short_accepted.
(** ... under-length or ragged inputs run out of their buffers. *)
Theorem C44_length_underflow : forall D inp out,
  (length inp < 8)%nat \/ (24 <= length inp /\ length inp mod 8 <> 0)%nat -> lc_aes_kw_decrypt D inp out = None.
Proof.
  intros D inp out H. unfold lc_aes_kw_decrypt. destruct (Nat.ltb_spec (length inp) 8); [reflexivity|].
  destruct H as [H|[H1 H2]]; [lia|]. unfold mode_kw_decrypt. rewrite skipn_length.
  destruct (Nat.ltb_spec (length inp - 8) 16); [lia|].
  destruct (Nat.eqb_spec ((length inp - 8) mod 8) 0) as [M|M]; [|reflexivity]. exfalso. apply H2.
  replace (length inp) with (length inp - 8 + 1 * 8)%nat by lia. rewrite Nat.mod_add by lia. exact M.
Qed.
Print Assumptions C44_length_underflow.
Theorem C44_refuted : exists inp out, (length inp = 20)%nat /\
  (forall key c, (length key = 16 \/ length key = 24 \/ length key = 32)%nat ->
   exists p tag, lc_aes_kw_decrypt (dec_of (snd (aes_setkey c key))) inp out = Some (0, p, tag)).
Proof.
  exists (repeat 0xA6 8 ++ repeat 7 12), []. split; [reflexivity|]. intros key c _. exists [], (repeat 0xA6 8).
  apply C44_short_accepted. cbn. lia.
Qed.
Print Assumptions C44_refuted.
(** Wrapping fewer than 16 bytes reports nothing: the wrapped key is the old tag (or zeros) and the old buffer. *)
Theorem C44_short_wrap : forall E tag inp out, (length inp < 16)%nat ->
  lc_aes_kw_encrypt E tag inp out = Some (tag ++ skipn 8 out, tag).
Proof.
  intros E tag inp out H. unfold lc_aes_kw_encrypt, mode_kw_encrypt.
  destruct (Nat.ltb_spec (length inp) 16); [reflexivity|lia].
Qed.
Print Assumptions C44_short_wrap.

(** * C45 *)
Theorem C45_chacha20 : forall memory key nonce data,
  length memory = 16%nat -> length key = 32%nat -> length nonce = 12%nat ->
  exists st1 st2, cc20_setkey (cc20_init memory) key = Some st1 /\ cc20_setiv st1 nonce = Some st2 /\
    fst (cc20_crypt st2 data) = CHACHA20 key 1 nonce data /\
    fst (cc20_crypt st2 (fst (cc20_crypt st2 data))) = data.
Proof.
  intros m key nonce data Lm Lk Ln.
  destruct (cc20_setkey (cc20_init m) key) as [st1|] eqn:E1; [|unfold cc20_setkey in E1; rewrite Lk in E1; discriminate].
  destruct (cc20_setiv st1 nonce) as [st2|] eqn:E2; [|unfold cc20_setiv in E2; rewrite Ln in E2; discriminate].
  exists st1, st2. split; [reflexivity|]. split; [exact E2|].
  rewrite (cc20_setup m key nonce st1 st2 Lm E1 E2). rewrite !cc20_crypt_spec by lia. cbn [fst].
  split; [reflexivity|apply CHACHA20_invol].
Qed.
Print Assumptions C45_chacha20.
Theorem C45_block : forall key counter nonce,
  fst (cc20_block (CC20_state key counter nonce)) = chacha20_block key counter nonce.
Proof. intros. rewrite cc20_block_spec. reflexivity. Qed.
Print Assumptions C45_block.
(** RFC 8439 2.3.2: the key stream block; and 2.4.2, first bytes, through the API functions. *)
Example C45_rfc8439_block :
  firstn 16 (chacha20_block (upto 32) 1 [0;0;0;9;0;0;0;0x4a;0;0;0;0])
  = [0x10;0xf1;0xe7;0xe4;0xd1;0x3b;0x59;0x15;0x50;0x0f;0xdd;0x1f;0xa3;0x20;0x71;0xc4].
Proof. vm_compute. reflexivity. Qed.
Example C45_rfc8439_enc :
  match cc20_setkey (cc20_init (repeat 77 16)) (upto 32) with
  | Some st => match cc20_setiv st [0;0;0;0;0;0;0;0x4a;0;0;0;0] with
               | Some st => fst (cc20_crypt st [0x4c;0x61;0x64;0x69;0x65;0x73;0x20;0x61])
               | None => [] end
  | None => [] end = [0x6e;0x2e;0x35;0x9a;0x25;0x68;0xf9;0x80].
Proof. vm_compute. reflexivity. Qed.
(** "Whatever happened earlier on the context" is false: setkey and setiv do not touch the counter, so after
    any use the second message under a new key and nonce starts at the old counter. *)
Theorem C45_setiv_keeps_counter : forall key0 nonce0 key nonce counter, 
  length key = 32%nat -> length nonce = 12%nat ->
  exists st, cc20_setkey (CC20_state key0 counter nonce0) key = Some st /\
             cc20_setiv st nonce = Some (CC20_state key counter nonce).
Proof.
  intros key0 nonce0 key nonce counter Lk Ln. unfold cc20_setkey, cc20_setiv. rewrite Lk, Ln. cbn [Nat.eqb].
  eexists. split; reflexivity.
Qed.
Print Assumptions C45_setiv_keeps_counter.
Theorem C45_refuted : exists key nonce data, length key = 32%nat /\ length nonce = 12%nat /\
  match cc20_setkey (cc20_init (repeat 0 16)) key with
  | Some st => match cc20_setiv st nonce with
    | Some st => let st := snd (cc20_crypt st data) in
      match cc20_setkey st key with
      | Some st => match cc20_setiv st nonce with
                   | Some st => fst (cc20_crypt st data) <> CHACHA20 key 1 nonce data
                   | None => False end
      | None => False end
    | None => False end
  | None => False end.
Proof. exists (upto 32), (upto 12), [0]. split; [reflexivity|]. split; [reflexivity|]. vm_compute. discriminate. Qed.
Print Assumptions C45_refuted.
